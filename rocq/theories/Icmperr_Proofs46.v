(** Lemmas about whole ICMP errors, IPv4 to IPv6. *)
Require Import Verif.Base Verif.Pool4_Model Verif.Rtrie_Model Verif.Nat64_Model Verif.Csum_Model Verif.Csum_Spec Verif.Csum_Proofs
  Verif.Csum_Properties Verif.Pkt_Model Verif.Pkt_Spec Verif.Pkt_Proofs Verif.Pkt_Properties
  Verif.Hdr_Model Verif.Hdr_Spec Verif.Hdr_Proofs Verif.Hdr_Properties Verif.Ext_Model Verif.Ext_Spec Verif.Ext_Proofs Verif.Ext_Properties
  Verif.Xlat_Model Verif.Xlat_Spec Verif.Xlat_Proofs Verif.Xlat_Proofs46 Verif.Icmperr_Spec Verif.Icmperr_Proofs.
Local Ltac Zify.zify_post_hook ::= Z.div_mod_to_equations.

Lemma segment46_prop (P Q : Prop) ports s6 d6 s4 d4 p seg seg' : (P <-> Q) -> segment46 P ports s6 d6 s4 d4 p seg seg' -> segment46 Q ports s6 d6 s4 d4 p seg seg'.
Proof. intros E (A & B & C & D). unfold segment46 in *. rewrite <- E. tauto. Qed.

Lemma l4_step46 e ports s4 d4 s6 d6 l m h p up l4 :
  let seg := skipn up m in
  datagram seg -> good_ports ports -> (p = 6 -> (20 <= l4)%nat) -> (p = 17 \/ p = 1 -> l4 = 8%nat) -> (up + l4 <= l)%nat -> (l <= length m)%nat ->
  (p = 1 -> port_id (y_ports e) = option_map fst ports) ->
  match ttp46_l4 e ports s4 d4 s6 d6 l m h (proto_of 1 p) up l4 seg [] with
  | XOk r => exists seg', r = [seg'] /\ length seg' = length seg /\ Forall is_u8 seg' /\ segment46 (y_sum e = CS_PARTIAL) ports s4 d4 s6 d6 p seg seg'
  | XDrop j => (j = J46_UDP_CSUM0 /\ p = 17 /\ word m (up + 6) = 0 /\ y_ports e = None /\ (mf4 m h = true \/ y_amend e = false))
      \/ (p = 1 /\ (icmp4_error_type (oct m up) \/ (j = J_UNKNOWN_ICMP4_TYPE /\ forall t c, ~ becomes rules46 (oct m up) (oct m (up + 1)) t c)))
  | _ => False
  end.
Proof.
  intros seg D G L6 L8 LU LM PI.
  assert (LS : (l4 <= length seg)%nat) by (unfold seg; rewrite skipn_length; lia).
  assert (F8 : Forall is_u8 seg) by apply D.
  assert (UC : p = 1 -> is_u8 (oct m up) /\ is_u8 (oct m (up + 1))).
  { intros E. specialize (L8 (or_intror E)). split.
    - replace (oct m up) with (oct seg 0) by (unfold seg; rewrite oct_skipn; f_equal; lia). apply oct_u8. exact F8.
    - replace (oct m (up + 1)) with (oct seg 1) by (unfold seg; rewrite oct_skipn; f_equal; lia). apply oct_u8. exact F8. }
  assert (PUT : forall k, (k <= length seg)%nat -> put 0 (firstn k seg) seg = seg).
  { intros k Hk. unfold put. change (firstn 0 seg) with (@nil Z). rewrite app_nil_l, firstn_length, Nat.min_l by lia. cbn [Nat.add]. apply firstn_skipn. }
  set (n64 := match y_ports e with Some _ => true | None => false end).
  assert (STEP : (p = 1 -> oct m up = 8 \/ oct m up = 0) -> ttp46_l4 e ports s4 d4 s6 d6 l m h (proto_of 1 p) up l4 seg [] =
    match seg46_of (y_le e) (y_sum e) n64 (mf4 m h) (y_amend e) ports s4 d4 s6 d6 p seg [] with Some r => XOk r | None => XDrop J46_UDP_CSUM0 end).
  { intros T. unfold ttp46_l4, seg46_of, proto_of. fold seg n64. destruct (p =? 6) eqn:E6.
    - specialize (L6 ltac:(lia)). rewrite Nat.max_r by lia. rewrite direct_ok by lia. cbn [of_res xbind]. rewrite PUT by lia. reflexivity.
    - destruct (p =? 17) eqn:E17.
      + specialize (L8 ltac:(lia)). rewrite direct_ok by lia. cbn [of_res xbind]. rewrite PUT by lia. reflexivity.
      + destruct (p =? 1) eqn:E1; [|reflexivity]. assert (E : p = 1) by lia. specialize (L8 (or_intror E)). rewrite direct_ok by lia. cbn [of_res xbind].
        cbn [concat]. rewrite app_nil_r. change byte with oct. rewrite (PI E).
        destruct (T E) as [U|U]; unfold xlat46_icmp_type; rewrite U; cbn [Z.eqb Pos.eqb xbind orb]; reflexivity. }
  assert (OKK : (p = 1 -> oct m up = 8 \/ oct m up = 0) -> match ttp46_l4 e ports s4 d4 s6 d6 l m h (proto_of 1 p) up l4 seg [] with
    | XOk r => exists seg', r = [seg'] /\ length seg' = length seg /\ Forall is_u8 seg' /\ segment46 (y_sum e = CS_PARTIAL) ports s4 d4 s6 d6 p seg seg'
    | XDrop j => (j = J46_UDP_CSUM0 /\ p = 17 /\ word m (up + 6) = 0 /\ y_ports e = None /\ (mf4 m h = true \/ y_amend e = false))
    | _ => False end).
  { intros T. rewrite (STEP T). pose proof (seg46_ok (y_le e) (y_sum e) n64 (mf4 m h) (y_amend e) ports s4 d4 s6 d6 p seg [] (pieces_one seg D) G) as S. cbv zeta in S.
    cbn [concat] in S. rewrite app_nil_r in S.
    specialize (S ltac:(intros X; specialize (L6 X); lia) ltac:(intros X; specialize (L8 X); lia) ltac:(intros X; unfold seg; rewrite oct_skipn, Nat.add_0_r; exact (T X))).
    destruct (seg46_of _ _ _ _ _ _ _ _ _ _ _ _ _) as [r|].
    - destruct S as (d1 & -> & S1 & S2 & S3 & _). exists d1. split; [reflexivity|]. split; [exact S1|]. split; [exact S2|]. rewrite app_nil_r in S3. exact S3.
    - destruct S as (S1 & S2 & S3 & S4). split; [reflexivity|]. split; [exact S1|]. split; [|split; [|exact S4]].
      + unfold word in *. unfold seg in S2. rewrite !oct_skipn in S2. replace (up + 6 + 1)%nat with (up + (6 + 1))%nat by lia. exact S2.
      + unfold n64 in S3. destruct (y_ports e); [discriminate|reflexivity]. }
  destruct (Z.eq_dec p 1) as [E|E].
  - destruct (UC E) as [U0 U1]. specialize (L8 (or_intror E)).
    destruct (Z.eq_dec (oct m up) 8) as [T|T8]; [pose proof (OKK (fun _ => or_introl T)) as K; destruct (ttp46_l4 _ _ _ _ _ _ _ _ _ _ _ _ _ _); tauto|].
    destruct (Z.eq_dec (oct m up) 0) as [T|T0]; [pose proof (OKK (fun _ => or_intror T)) as K; destruct (ttp46_l4 _ _ _ _ _ _ _ _ _ _ _ _ _ _); tauto|].
    clear OKK STEP. unfold ttp46_l4, proto_of. rewrite E. cbn [Z.eqb Pos.eqb]. rewrite direct_ok by lia. cbn [of_res xbind]. change byte with oct.
    rewrite type46_applied by assumption. destruct (applied rules46 (oct m up) (oct m (up + 1))) as [[t c]|] eqn:A; cbn [xbind].
    2: { right. split; [reflexivity|]. right. split; [reflexivity|]. apply applied_none; [exact disjoint46|exact A]. }
    replace ((oct m up =? 8) || (oct m up =? 0)) with false by lia. right. split; [reflexivity|]. left.
    destruct (is_icmp4_error (oct m up)) eqn:X; [apply err4_iff; exact X|]. exfalso.
    assert (Y : xlat46_icmp_type (oct m up) (oct m (up + 1)) = XOk (t, c)) by (rewrite type46_applied by assumption; rewrite A; reflexivity).
    apply (echo_type46 [] (Meta 0 TCP 0 0) 0 ltac:(lia)) in Y; [lia|]. intros Z. apply err4_iff in Z. congruence.
  - pose proof (OKK (fun X => False_ind _ (E X))) as K. destruct (ttp46_l4 _ _ _ _ _ _ _ _ _ _ _ _ _ _); tauto.
Qed.

(** ** Octets, and the extension *)

Lemma handle6_u8 l4 inp out r : Forall is_u8 inp -> Forall is_u8 out -> handle_icmp6_extension l4 inp out = XOk r -> Forall is_u8 r.
Proof.
  intros Fi Fo. unfold handle_icmp6_extension. destruct (handle_icmp_extension _ _ _ _ _ _ _ _) as [[f x]| | |] eqn:X; cbn [xbind]; try discriminate.
  intros E. apply xok_inj in E. subst r. apply put_u8; [apply octets_u8|]. apply put_u8; [apply u8_one|]. exact (handle_u8 _ _ _ _ _ _ _ _ _ _ Fi Fo X).
Qed.
Lemma handle6_len l4 inp out P l3 l3' r : Forall is_u8 inp -> Forall is_u8 out -> (length inp = l4 + 8 + P)%nat -> (length out + l3 = 48 + l3' + P)%nat ->
  Z.of_nat (length inp) < 65536 -> Z.of_nat (length out) < 65536 + 40 -> (l3 <= P)%nat -> (4 * oct inp (l4 + 5) <> 0 -> Z.of_nat l3 <= 4 * oct inp (l4 + 5)) ->
  handle_icmp6_extension l4 inp out = XOk r -> (48 <= length r)%nat.
Proof.
  intros Fi Fo L1 L2 L3 L4 L5 A. unfold handle_icmp6_extension. change (byte inp (l4 + 5)) with (oct inp (l4 + 5)).
  set (ipl := 4 * oct inp (l4 + 5)) in *. pose proof (oct_u8 inp (l4 + 5) Fi) as U. unfold is_u8 in U. change (2^8) with 256 in U.
  change 48 with (Z.of_nat 48).
  set (force := should_remove_ie _ _). clearbody force.
  destruct (Z.eq_dec ipl 0) as [Z0|Z0].
  { unfold handle_icmp_extension. rewrite (proj2 (Z.eqb_eq _ _) Z0). cbn [xbind]. intros E. apply xok_inj in E. subst r.
    rewrite put_length; rewrite ?octets_length; rewrite put_length; cbn [length]; lia. }
  assert (R := handle_spec 1280 3 force ipl (Z.of_nat l4 + 8) 48 (Z.of_nat P) (Z.of_nat l3' - Z.of_nat l3) inp out ltac:(lia) ltac:(lia) ltac:(lia) ltac:(lia) ltac:(lia) ltac:(lia) ltac:(lia) ltac:(lia) ltac:(lia) ltac:(lia) ltac:(lia)).
  destruct (handle_icmp_extension _ _ _ _ _ _ _ _) as [[f o1]|j|j e inf|]; cbn [xbind]; try discriminate. change (2 ^ 3) with 8 in R.
  destruct (result_headers 8 1280 force ipl (Z.of_nat P) (Z.of_nat l4 + 8) (Z.of_nat l3' - Z.of_nat l3) 48 inp out f o1 R) as (R1 & R2 & R3 & R4 & R5); try lia; try assumption.
  intros E. apply xok_inj in E. subst r. rewrite put_length; rewrite ?octets_length; rewrite put_length; cbn [length]; lia.
Qed.

Lemma handle6_fits l4 inp out r : (l4 + 8 <= length inp)%nat -> Z.of_nat (length inp) < 65536 ->
  handle_icmp6_extension l4 inp out = XOk r -> 4 * oct inp (l4 + 5) = 0 \/ 4 * oct inp (l4 + 5) <= Z.of_nat (length inp) - Z.of_nat (l4 + 8).
Proof.
  intros L1 L2. unfold handle_icmp6_extension. change (byte inp (l4 + 5)) with (oct inp (l4 + 5)). set (ipl := 4 * oct inp (l4 + 5)).
  unfold handle_icmp_extension. assert (E : u32 (Z.of_nat (length inp) - (Z.of_nat l4 + 8)) = Z.of_nat (length inp) - Z.of_nat (l4 + 8)) by (rewrite u32_mod, Z.mod_small; lia).
  cbv zeta. rewrite E. set (v := Z.of_nat (length inp) - Z.of_nat (l4 + 8)) in *. clearbody v ipl. destruct (ipl =? 0) eqn:A; [lia|]. destruct (ipl =? v) eqn:B; [lia|].
  destruct (v <? ipl) eqn:C; [discriminate|lia].
Qed.

(** ** Trimming and the checksum *)

Definition finish46 (le : bool) (src dst : Z) (out : list Z) : list Z :=
  let t := trim_1280 out in firstn 40 t ++ compute_icmp6_csum le src dst (skipn 40 t).
Lemma finish46_spec le s d out tc len nh hops src dst :
  Forall is_u8 out -> (48 <= length out)%nat -> ipv6_header out 0 tc len nh hops src dst -> len = Z.of_nat (length out) - 40 ->
  let o := finish46 le s d out in
  length o = Nat.min (length out) 1280 /\ Forall is_u8 o
  /\ ipv6_header o 0 tc (Z.of_nat (length o) - 40) nh hops src dst
  /\ ok6 s d 58 (skipn 40 o) /\ (forall i, (40 <= i < 48)%nat -> i <> 42%nat -> i <> 43%nat -> oct o i = oct out i)
  /\ skipn 48 o = firstn (1280 - 48) (skipn 48 out).
Proof.
  intros F L H E. destruct (C41_trim_46 out tc len nh hops src dst ltac:(lia) H E) as (T1 & T2 & T3).
  assert (FT : Forall is_u8 (trim_1280 out)).
  { unfold trim_1280. destruct (length out <=? 1280)%nat; [exact F|]. apply put_u8; [apply octets_u8|apply firstn_u8; exact F]. }
  unfold finish46. cbv zeta. set (t := trim_1280 out) in *. clearbody t.
  destruct (compute6_ok le s d (skipn 40 t)) as (c & -> & Uc & K); [split; [apply skipn_u8; exact FT|rewrite skipn_length; lia]|rewrite skipn_length; lia|].
  set (x := put 2 (st16 le c) (skipn 40 t)) in *.
  assert (LX : length x = (length t - 40)%nat) by (unfold x; rewrite put_length; rewrite ?st16_length, skipn_length; lia).
  assert (L40 : length (firstn 40 t) = 40%nat) by (rewrite firstn_length; lia).
  assert (LO : length (firstn 40 t ++ x) = length t) by (rewrite app_length; lia).
  assert (FX : Forall is_u8 x) by (apply put_u8; [apply st16_u8; exact Uc|apply skipn_u8; exact FT]).
  assert (S40 : skipn 40 (firstn 40 t ++ x) = x) by (rewrite skipn_app, L40, skipn_all2 by lia; reflexivity).
  split; [lia|]. split; [apply Forall_app; split; [apply firstn_u8; exact FT|exact FX]|].
  split; [rewrite LO; apply (ipv6_same t); [rewrite firstn_app_l by lia; rewrite firstn_firstn; reflexivity|exact T3]|].
  rewrite S40. split; [exact K|]. split.
  - intros i I I2 I3. unfold oct. rewrite app_nth2 by lia. rewrite L40. unfold x. fold (oct (put 2 (st16 le c) (skipn 40 t)) (i - 40)).
    rewrite oct_put_out by (rewrite st16_length, ?skipn_length; lia). rewrite T2, oct_skipn. replace (40 + (i - 40))%nat with i by lia. apply oct_firstn. lia.
  - change 48%nat with (40 + 8)%nat at 1. rewrite skipn_plus, S40. unfold x. rewrite skipn_put by (rewrite st16_length, ?skipn_length; lia).
    rewrite T2, <- skipn_plus. cbn [Nat.add]. replace 1280%nat with (48 + (1280 - 48))%nat at 1 by reflexivity. rewrite <- firstn_skipn_comm. reflexivity.
Qed.

Section error46.
Context (e : env46) (m : list Z) (lin l : nat) (mt : meta) (p : Z).
Context (F : Forall is_u8 m) (V : view4 m lin l mt p) (PI : p = 1).
Let up := l4off mt.
Let q := payoff mt.
Let p' := oct m (q + 9).
Let up' := (q + ihl m q)%nat.
Let l3' := l3_len46 m q.
Context (ER : icmp4_error_type (oct m up)).
Context (pay' : nat) (IN : inner4 m q pay') (PL : (pay' <= l)%nat).
Context (NE : p' = 1 -> ~ icmp4_error_type (oct m up')) (P58 : p' <> 58) (DO : p' = 6 -> 5 <= oct m (up' + 12) / 16).
Context (GP : good_ports (y_ports e)) (PE : p' = 1 -> forall a b, y_ports e = Some (a, b) -> a = b) (NP : y_sum e <> CS_PARTIAL).
Context (US : is_u128 (y_src e)) (UD : is_u128 (y_dst e)) (US' : is_u128 (y_src' e)) (UD' : is_u128 (y_dst' e)).
Context (FH : Forall is_u8 (y_head e)) (HR : (96 <= length (y_head e) + up')%nat).
Context (UP : (20 <= up)%nat) (OPT : options m up 20) (FUEL : (up < 20 + y_fuel e)%nat) (LEN : Z.of_nat (length m) <= 65527).
Context (ATTR : attr4 m up <> 0 -> Z.of_nat (ihl m q) <= attr4 m up).

Lemma f_facts : q = (up + 8)%nat /\ (up' <= pay')%nat /\ (q + 20 <= up')%nat /\ (l <= length m)%nat /\ (l3' = 40 \/ l3' = 48)%nat.
Proof.
  pose proof (a_l4 m lin l mt p F V ltac:(rewrite PI; discriminate) ltac:(rewrite PI; discriminate) (a_icmp_first m lin l mt p V PI)) as (_ & A). pose proof (a_pay m lin l mt p V) as B.
  destruct IN as (I1 & _ & I3 & _ & _ & (E1 & E2 & E3) & I7). split; [exact (A ltac:(tauto))|]. fold p' up' in E1, E2, E3. split.
  { destruct (Z.eq_dec p' 6) as [X|X]; [destruct (E1 X); lia|]. destruct (Z.eq_dec p' 17) as [Y|Y]; [rewrite E2 by tauto; lia|].
    destruct (Z.eq_dec p' 1) as [Z|Z]; [rewrite E2 by tauto; lia|]. rewrite E3 by assumption. lia. }
  split; [unfold up'; lia|]. split; [destruct V; lia|]. unfold l3', l3_len46. destruct (fragmented4 m q); tauto.
Qed.
Lemma f_error : error4 m mt = true. Proof. apply (a_error m lin l mt p V). split; [exact PI|exact ER]. Qed.
Lemma f_whole : fragmented4 m 0 = false.
Proof.
  destruct (fragmented4 m 0) eqn:E; [|reflexivity]. apply frag4_iff in E. destruct V as [PK]. destruct PK as (_ & _ & _ & _ & _ & _ & W). destruct (W PI) as (W1 & W2 & _). tauto.
Qed.

Lemma f_flow : match compute_flowix46 e l m mt with
  | XOk _ => True
  | XDrop j => j = J_UNKNOWN_ICMP4_TYPE /\ forall t c, ~ becomes rules46 (oct m up) (oct m (up + 1)) t c
  | _ => False end.
Proof.
  destruct f_facts as (A1 & A2 & A3 & A4 & A5).
  unfold compute_flowix46. change (byte m 9) with (oct m 9). rewrite <- (a_p m lin l mt p V), PI. cbn [xlat_nexthdr Z.eqb Pos.eqb orb].
  fold up. rewrite direct_ok by lia. cbn [of_res xbind]. change byte with oct. rewrite type46_applied by (apply oct_u8; assumption).
  destruct (applied rules46 (oct m up) (oct m (up + 1))) as [[t c]|] eqn:A; cbn [xbind].
  2: { split; [reflexivity|]. apply applied_none; [exact disjoint46|exact A]. }
  destruct (_ || _); [exact Logic.I|]. unfold internal_addresses46. destruct (y_ports e); [exact Logic.I|].
  fold q. rewrite direct_ok by lia. cbn [of_res xbind]. change byte with oct. change ip_hlen with ihl. fold p' up'. destruct IN as (_ & _ & _ & _ & _ & TE & _).
  destruct (inner_l4_spec 1 l m p' up' pay' F ltac:(tauto) TE PL DO) as (l4 & -> & _). exact Logic.I.
Qed.

Lemma f_inner out lino : Forall is_u8 out -> length out = (48 + l3' + (length m - up'))%nat -> skipn (48 + l3') out = skipn up' m -> (48 + l3' + (pay' - up') <= lino)%nat ->
  match inner46 3 e l m q lino 48 out with
  | XOk o => exists inn, o = firstn 48 out ++ inn /\ inner_packet46 (rev_ports (y_ports e)) (tc46 (y_reset e) m q) (y_src' e) (y_dst' e) m q l3' inn
  | XDrop j => (j = J_UNKNOWN_ICMP4_TYPE /\ p' = 1 /\ forall t c, ~ becomes rules46 (oct m up') (oct m (up' + 1)) t c)
      \/ (j = J46_UDP_CSUM0 /\ p' = 17 /\ word m (up' + 6) = 0 /\ y_ports e = None /\ (fr4_more m q \/ y_amend e = false))
  | _ => False
  end.
Proof.
  intros FO LO S48 LL. destruct f_facts as (A1 & A2 & A3 & A4 & A5).
  cbn [inner46]. rewrite direct_ok by lia. cbn [of_res xbind]. change byte with oct. change ip_hlen with ihl. fold p' up' l3'. pose proof IN as (I1 & I2 & I3 & I4 & I5 & TE & I7).
  destruct (inner_l4_spec 1 l m p' up' pay' F ltac:(tauto) TE PL DO) as (l4 & -> & EP & L6 & L8 & L60). cbn [xbind].
  rewrite direct_ok by lia. cbn [of_res xbind].
  rewrite int46_spec by (assumption || rewrite skipn_length; lia). cbn [xbind]. rewrite direct_ok by lia. cbn [of_res xbind].
  set (len := u16 _). set (out1 := skipn 48 out).
  assert (UL : is_u16 len) by (unfold len; apply u16_range; rewrite u16_mod; lia).
  destruct (written46_spec (y_reset e) (fragmented4 m q) m q (oct m (q + 8)) len (y_src' e) (y_dst' e) out1 F (skipn_u8 48 _ FO)
    ltac:(unfold out1; rewrite skipn_length; change (if fragmented4 m q then 48%nat else 40%nat) with l3'; lia) (oct_u8 m _ F) UL US' UD') as (B1 & B2 & B3 & B4 & B5).
  change (if fragmented4 m q then 48%nat else 40%nat) with l3' in B3.
  set (w := written46 _ _ _ _ _ _ _ _ _) in *. clearbody w. unfold out1 in B1, B3. rewrite skipn_length in B1. rewrite <- skipn_plus, S48 in B3.
  assert (L48 : length (firstn 48 out) = 48%nat) by (rewrite firstn_length; lia).
  assert (SK : skipn (48 + l3') (firstn 48 out ++ w) = skipn up' m).
  { rewrite skipn_plus. rewrite (skipn_app 48), L48, (skipn_all2 (firstn 48 out)) by lia. exact B3. }
  rewrite SK.
  replace (match proto_of 1 p' with ICMP => is_icmp4_error (oct m up') | _ => false end) with false.
  2: { unfold proto_of. destruct (p' =? 6); [reflexivity|]. destruct (p' =? 17); [reflexivity|]. destruct (p' =? 1) eqn:E1; [|reflexivity].
    destruct (is_icmp4_error (oct m up')) eqn:X; [|reflexivity]. exfalso. apply NE; [clear - E1; lia|apply err4_iff; exact X]. }
  assert (DG : datagram (skipn up' m)) by (split; [apply skipn_u8; exact F|rewrite skipn_length; lia]).
  assert (GR : good_ports (rev_ports (y_ports e))) by (destruct (y_ports e) as [[? ?]|]; cbn in *; tauto).
  rewrite !be32_field by lia.
  pose proof (l4_step46 e (rev_ports (y_ports e)) (field m (q + 12) 4) (field m (q + 16) 4) (y_src' e) (y_dst' e) l m q p' up' l4
    DG GR L6 L8 ltac:(lia) A4 ltac:(intros X; specialize (PE X); destruct (y_ports e) as [[a b]|]; [cbn; rewrite (PE a b eq_refl); reflexivity|reflexivity])) as S.
  cbv zeta in S. destruct (ttp46_l4 _ _ _ _ _ _ _ _ _ _ _ _ _ _) as [o|j|j r i'|]; cbn [xbind]; try (exfalso; exact S).
  2: { destruct S as [(S1 & S2 & S3 & S4 & S5)|[S1 [S2|S2]]]; [right|elim (NE S1 S2)|left; tauto]. rewrite mf4_more in S5. tauto. }
  destruct S as (seg' & -> & S1 & S2 & S3). rewrite skipn_length in S1. cbn [concat]. rewrite app_nil_r.
  exists (firstn l3' w ++ seg'). split.
  { rewrite app_assoc. f_equal. rewrite firstn_app, L48. rewrite (firstn_all2 (n := 48 + l3')) by lia. f_equal. f_equal. lia. }
  assert (LW : length (firstn l3' w) = l3') by (rewrite firstn_length; lia).
  assert (FR : fragmented4 m q = true <-> fr4_more m q) by (rewrite frag4_iff; tauto).
  assert (LE : (word m (q + 2) - Z.of_nat (ihl m q) + (Z.of_nat l3' - 40)) mod 65536 = len).
  { unfold len. rewrite u16_mod, u32_mod. replace (word m (q + 2) - Z.of_nat (ihl m q + l4) + Z.of_nat (l3' + l4) - 40) with (word m (q + 2) - Z.of_nat (ihl m q) + (Z.of_nat l3' - 40)) by lia.
    set (v := _ - _ + _). clear. lia. }
  unfold inner_packet46. fold p' up'. rewrite LE. split; [rewrite app_length; lia|]. split; [apply Forall_app; split; [apply firstn_u8; exact B2|exact S2]|].
  assert (HD : forall nh, ipv6_header w 0 (tc46 (y_reset e) m q) len nh (oct m (q + 8)) (y_src' e) (y_dst' e) ->
    ipv6_header (firstn l3' w ++ seg') 0 (tc46 (y_reset e) m q) len nh (oct m (q + 8)) (y_src' e) (y_dst' e)).
  { intros nh. apply ipv6_same. rewrite firstn_app_l by lia. symmetry. apply ff. lia. }
  split; [|split].
  - intros NM. assert (FE : fragmented4 m q = false) by (destruct (fragmented4 m q); [elim NM; apply FR; reflexivity|reflexivity]). rewrite FE in B4.
    split; [unfold l3', l3_len46; rewrite FE; reflexivity|]. apply HD. exact B4.
  - intros MF. assert (FE : fragmented4 m q = true) by (apply FR; exact MF). rewrite FE in B4, B5. specialize (B5 eq_refl).
    assert (E48 : l3' = 48%nat) by (unfold l3', l3_len46; rewrite FE; reflexivity).
    split; [exact E48|]. split; [apply HD; exact B4|]. rewrite I5 in B5.
    assert (N : forall i, (i < 48)%nat -> oct (firstn l3' w ++ seg') i = oct w i).
    { intros i Hi. unfold oct. rewrite app_nth1 by lia. apply nth_firstn_lt. lia. }
    assert (W : forall i, (i + 2 <= 48)%nat -> word (firstn l3' w ++ seg') i = word w i) by (intros i Hi; unfold word; rewrite !N by lia; reflexivity).
    unfold fragment_header, fr_offset, fr_more in *. cbn [Nat.add] in *. rewrite !N, !W by lia. fold p' in B5. tauto.
  - rewrite skipn_app, LW, (skipn_all2 (firstn l3' w)) by lia. rewrite Nat.sub_diag. cbn [app skipn]. apply (segment46_prop (y_sum e = CS_PARTIAL)); [tauto|exact S3].
Qed.

Lemma f_all :
  match xlat46 e l m mt with
  | XOk outs => exists o, outs = [o] /\ (y_hairpin e = false -> 1 < oct m 8)
      /\ (forall o, at_opt m up 20 o -> source_route m o -> exists o', (o' <= o)%nat /\ at_opt m up 20 o' /\ source_route m o' /\ ~ unexpired m o')
      /\ (y_sum e = CS_NONE -> checks (skipn up m))
      /\ (length o <= 1280)%nat /\ 1280 <= Z.min (y_mtu e) (y_lim e) /\ Forall is_u8 o
      /\ ipv6_header o 0 (tc46 (y_reset e) m 0) (Z.of_nat (length o) - 40) 58 (hops46 (y_hairpin e) m) (y_src e) (y_dst e)
      /\ ok6 (y_src e) (y_dst e) 58 (skipn 40 o) /\ becomes rules46 (oct m up) (oct m (up + 1)) (oct o 40) (oct o 41)
      /\ rest46 (y_plateaus e) (y_inmtu e) (y_mtu e) (word m (q + 2)) (skipn up m) (skipn 40 o)
      /\ exists inn l3', inner_packet46 (rev_ports (y_ports e)) (tc46 (y_reset e) m q) (y_src' e) (y_dst' e) m q l3' inn
         /\ carried46 m up (ihl m q) l3' inn o
  | XIcmp j r i => (j = J46_TTL /\ r = E_TTL /\ i = 0 /\ y_hairpin e = false /\ oct m 8 <= 1)
      \/ (j = J46_SRC_ROUTE /\ r = E_SRC_ROUTE /\ i = 0 /\ exists o, at_opt m up 20 o /\ source_route m o /\ unexpired m o)
  | XDrop j => (forall t c, ~ becomes rules46 (oct m up) (oct m (up + 1)) t c)
      \/ (oct m up = 12 /\ forall p, ~ points pointers46 (oct m (up + 4)) p)
      \/ (j = J46_BAD_MTU /\ Z.min (y_mtu e) (y_lim e) < 1280)
      \/ (j = J46_ICMP_CSUM /\ y_sum e = CS_NONE /\ ~ checks (skipn up m))
      \/ (j = J_UNKNOWN_ICMP4_TYPE /\ p' = 1 /\ forall t c, ~ becomes rules46 (oct m up') (oct m (up' + 1)) t c)
      \/ (j = J46_UDP_CSUM0 /\ p' = 17 /\ word m (up' + 6) = 0 /\ y_ports e = None /\ (fr4_more m q \/ y_amend e = false))
      \/ (j = J_ICMPEXT_BIG /\ Z.of_nat (length m - (up + 8)) < attr4 m up)
  | XUB => False
  end.
Proof.
  destruct f_facts as (A1 & A2 & A3 & A4 & A5).
  assert (UPL : (up' <= length m)%nat) by (clear - A2 IN; destruct IN as (_ & _ & _ & _ & _ & _ & I7); lia).
  destruct (route_spec (y_fuel e) l m F) as (rb & RB & RT & RF); try (rewrite <- (a_up m lin l mt p V); fold up; assumption || lia).
  rewrite <- (a_up m lin l mt p V) in RT, RF. fold up in RT, RF.
  unfold xlat46, ttp46_alloc_skb. fold up q. pose proof f_flow as FL. destruct (compute_flowix46 e l m mt) as [[]|j|j r i|]; cbn [xbind]; try (exfalso; exact FL).
  2: { left. tauto. }
  rewrite f_error, f_whole. unfold plan46. cbv zeta. destruct (Z.min (y_mtu e) (y_lim e) <? 1280) eqn:MB; cbn [xbind].
  { right. right. left. split; [reflexivity|]. clear - MB; lia. }
  apply Z.ltb_ge in MB.
  unfold allocate_fast. rewrite f_error. fold up q. change ip_hlen with ihl. fold up' l3'. unfold l3_len46 at 1. rewrite f_whole.
  destruct (repushed_app (y_head e) m up' up' (48 + l3') ltac:(destruct IN; lia) ltac:(lia) FH F) as (R1 & R2 & R3).
  rewrite Nat.sub_diag in R1, R2, R3. cbn [Nat.add] in R1, R2, R3.
  replace (l3' + (q - up) + 40)%nat with (48 + l3')%nat by lia. cbn [Nat.add].
  set (al := repushed (y_head e) m up' _) in *. clearbody al.
  assert (LAL : length al = (48 + l3' + (length m - up'))%nat) by exact R1. clear R1.
  pose proof (ext46_spec (y_fuel e) (y_reset e) (y_hairpin e) (y_src e) (y_dst e) l m al [] F ltac:(clear - LAL; lia)) as X.
  destruct (ttp46_ipv6_external _ _ _ _ _ _ _ _) as [outs|j|j r i|]; cbn [xbind].
  2: { elim X. }
  2: { destruct X as [(X1 & X2 & X3 & X4)|(X1 & X2 & X3 & X4 & X5 & _)]; [right|left; tauto]. split; [exact X1|]. split; [exact X2|]. split; [exact X3|]. apply RT. congruence. }
  2: { exact (X _ RB). }
  destruct X as (X1 & X2 & ->). specialize (RF ltac:(congruence)). cbn [some_next autofill_hdr6]. rewrite orb_false_r, f_whole.
  assert (LU : u16 (Z.of_nat (length al) - 40) = Z.of_nat (length al) - 40) by (rewrite u16_mod; apply Z.mod_small; lia). rewrite LU.
  pose proof (hops46_u8 (y_hairpin e) m F X2) as HU. set (hops := hops46 (y_hairpin e) m) in *.
  destruct (written46_spec (y_reset e) false m 0 hops (Z.of_nat (length al) - 40) (y_src e) (y_dst e) al F R3 ltac:(change (40 <= length al)%nat; lia) HU ltac:(apply u16_range; lia) US UD) as (O1 & O2 & O3 & O4 & _).
  set (o := written46 _ _ _ _ _ _ _ _ _) in *. clearbody o.
  replace (first4 m 0) with true by (symmetry; apply a_first, (a_icmp_first m lin l mt p V PI)).
  unfold ttp46_icmp_error. fold up q. rewrite direct_ok by lia. cbn [of_res xbind].
  assert (L8 : length (firstn 8 (skipn up m)) = 8%nat) by (rewrite firstn_length, skipn_length; lia).
  assert (L8o : length (firstn 8 (skipn 40 o)) = 8%nat) by (rewrite firstn_length, skipn_length; lia).
  rewrite be16_word.
  pose proof (icmp46_spec (port_id (y_ports e)) (y_plateaus e) (y_inmtu e) (Some (y_mtu e)) (word m (q + 2)) (firstn 8 (skipn up m)) (firstn 8 (skipn 40 o)) L8 L8o
    (firstn_u8 8 _ (skipn_u8 up _ F)) ltac:(destruct (y_ports e) as [[? ?]|]; [apply GP|exact Logic.I])) as H.
  assert (H0 : forall i, (i < 8)%nat -> oct (firstn 8 (skipn up m)) i = oct m (up + i)) by (intros i Hi; rewrite oct_firstn, oct_skipn by lia; reflexivity).
  assert (HW : word (firstn 8 (skipn up m)) 6 = word (skipn up m) 6) by (unfold word; rewrite !oct_firstn by lia; reflexivity).
  destruct (icmp46_header _ _ _ _ _ _ _) as [h|j|j r i|]; cbn [xbind]; try (exfalso; exact H).
  2: { rewrite !H0, Nat.add_0_r in H by lia. clear - H. tauto. }
  rewrite HW, !H0, Nat.add_0_r in H by lia. destruct H as (H1 & H2 & H3 & H4 & _ & H5 & H6 & H7 & H8).
  set (out := put 40 h o).
  assert (LOUT : length out = length al) by (clear - H1 O1 LAL; unfold out; rewrite put_length; lia).
  assert (FOUT : Forall is_u8 out) by (apply put_u8; assumption).
  assert (S48 : skipn (48 + l3') out = skipn up' m).
  { unfold out. rewrite skipn_put by (clear - H1 O1 LAL; lia). change (48 + l3')%nat with (40 + (8 + l3'))%nat. rewrite skipn_plus, O3, <- skipn_plus. exact R2. }
  assert (OH : forall i, (i < 8)%nat -> oct out (40 + i) = oct h i).
  { intros i Hi. clear - Hi H1 O1 LAL. unfold out. rewrite oct_put_in by lia. unfold oct. f_equal. lia. }
  assert (HO : ipv6_header out 0 (tc46 (y_reset e) m 0) (Z.of_nat (length al) - 40) 58 hops (y_src e) (y_dst e)).
  { apply (ipv6_same o); [unfold out; symmetry; apply firstn_put_before; clear - H1 O1 LAL; lia|]. cbn [Nat.add] in O4. rewrite <- (a_p m lin l mt p V), PI in O4. exact O4. }
  clearbody out. unfold post_icmp6error. fold up q.
  assert (DG : datagram (skipn 40 out)) by (split; [apply skipn_u8; exact FOUT|rewrite skipn_length; clear - LOUT LAL LEN A1 A3 A5 UP; lia]).
  destruct (C33_errors46 (y_le e) (y_src e) (y_dst e) (skipn up m) (skipn 40 out) (skipn_u8 up _ F) DG ltac:(rewrite skipn_length; clear - LOUT LAL; lia)) as [CK _].
  destruct (validate_icmp4_csum (y_le e) (y_sum e) (skipn up m)) eqn:VC; cbn [negb].
  2: { right. right. right. left. split; [reflexivity|]. assert (SN : y_sum e = CS_NONE) by (destruct (y_sum e); [reflexivity|discriminate VC..]).
    split; [exact SN|]. rewrite SN in VC. intros K. apply CK in K. congruence. }
  assert (VOK : y_sum e = CS_NONE -> checks (skipn up m)) by (intros SN; apply CK; rewrite <- SN; exact VC).
  pose proof (f_inner out (length out - (length m - l)) FOUT ltac:(clear - LOUT LAL; lia) S48 ltac:(clear - LOUT LAL PL A2 A4 UPL; lia)) as I.
  destruct (inner46 _ _ _ _ _ _ _ _) as [o2|j|j r i|]; cbn [xbind]; try (exfalso; exact I).
  2: { clear - I. tauto. }
  destruct I as (inn & -> & PK). pose proof PK as (PK1 & PK2 & _). fold up' in PK1.
  set (o2 := firstn 48 out ++ inn). assert (L48 : length (firstn 48 out) = 48%nat) by (rewrite firstn_length; clear - LOUT LAL; lia).
  assert (LO2 : length o2 = length al) by (clear - L48 LOUT LAL PK1; unfold o2; rewrite app_length; lia).
  assert (FO2 : Forall is_u8 o2) by (apply Forall_app; split; [apply firstn_u8; exact FOUT|exact PK2]).
  assert (SI : skipn 48 o2 = inn) by (unfold o2; rewrite skipn_app, L48, skipn_all2 by (clear - L48; lia); reflexivity).
  assert (OO2 : forall i, (i < 48)%nat -> oct o2 i = oct out i).
  { intros i Hi. unfold o2, oct. rewrite app_nth1 by (clear - Hi L48; lia). apply nth_firstn_lt. exact Hi. }
  assert (HO2 : ipv6_header o2 0 (tc46 (y_reset e) m 0) (Z.of_nat (length al) - 40) 58 hops (y_src e) (y_dst e)).
  { apply (ipv6_same out); [|exact HO]. clear - L48. unfold o2. rewrite firstn_app_l by lia. symmetry. apply ff. lia. }
  clearbody o2. clear HO S48.
  assert (B1 : (length m = up + 8 + (length m - (up + 8)))%nat) by (clear - A1 A3 UPL; lia). assert (B2 : (length o2 + ihl m q = 48 + l3' + (length m - (up + 8)))%nat) by (clear - LO2 LAL A1 A3 UPL; unfold up' in *; lia).
  assert (B3 : Z.of_nat (length m) < 65536) by (clear - LEN; lia). assert (B4 : Z.of_nat (length o2) < 65536 + 40) by (clear - LO2 LAL LEN A1 A3 A5 UP; lia).
  assert (B5 : (ihl m q <= length m - (up + 8))%nat) by (clear - A1 UPL; unfold up' in *; lia).
  assert (TY : In (oct m up) [3; 11; 12]).
  { destruct ER as [T|[T|[T|[T|[T|[]]]]]]; cbn [In]; try (clear - T; lia); exfalso; rewrite <- T in H3;
      clear - H3; destruct H3 as (lo & hi & n & RL & _); cbn [rules46 In] in RL; repeat (destruct RL as [RL|RL]; [discriminate RL|]); exact RL. }
  pose proof (fun r => handle6_len up m o2 (length m - (up + 8)) (ihl m q) l3' r F FO2 B1 B2 B3 B4 B5 ATTR) as HL6.
  pose proof (C41_46_partial up m o2 (length m - (up + 8)) (ihl m q) l3' _ _ _ _ _ _ _ _ F FO2 B1 B2 B3 B4 B5 ATTR TY H3 HO2) as C. cbv zeta in C. fold (attr4 m up) in C.
  destruct (handle_icmp6_extension up m o2) as [o3|j|j r i|] eqn:HX; cbn [xbind]; try (exfalso; exact C).
  2: { clear - C. tauto. }
  pose proof (handle6_u8 _ _ _ _ F FO2 HX) as F3. pose proof (HL6 o3 eq_refl) as L3. destruct C as (C1 & C2 & C3 & C4).
  fold (finish46 (y_le e) (y_src e) (y_dst e) o3).
  destruct (finish46_spec (y_le e) (y_src e) (y_dst e) o3 _ _ _ _ _ _ F3 L3 C1 eq_refl) as (Q1 & Q2 & Q3 & Q4 & Q5 & Q6). set (o4 := finish46 _ _ _ o3) in *. clearbody o4.
  assert (HH : forall i, (i < 8)%nat -> i <> 2%nat -> i <> 3%nat -> i <> 4%nat -> oct o4 (40 + i) = oct h i).
  { intros i I1 I2 I3 I4. rewrite Q5, C2, OO2 by (clear - I1 I2 I3 I4; lia). apply OH; exact I1. }
  assert (O44 : oct o4 44 = oct o3 44) by (apply Q5; clear; lia).
  rewrite <- (HH 0%nat), <- (HH 1%nat) in H3 by (clear; lia). rewrite <- (HH 0%nat) in C4 by (clear; lia). change (40 + 0)%nat with 40%nat in *.
  exists o4. split; [reflexivity|]. split; [exact X2|]. split; [exact RF|]. split; [exact VOK|]. split; [clear - Q1; lia|]. split; [exact MB|]. split; [exact Q2|]. split; [exact Q3|].
  split; [exact Q4|]. split; [exact H3|]. 
  assert (CA : carried46 m up (ihl m q) l3' inn o4).
  { unfold carried46. cbv zeta. rewrite SI in C3, C4.
    replace (Z.of_nat (length m) - Z.of_nat (up + 8) - attr4 m up) with (Z.of_nat (length m - (up + 8)) - attr4 m up) by (clear - B1; lia).
    split.
    - intros C. destruct (C3 C) as [C5 C6]. split; [rewrite O44; exact C5|]. rewrite Q6, C6. reflexivity.
    - intros G1 G2. destruct (C4 G1 G2) as (C5 & C6 & C7). rewrite firstn_all2 in Q6 by (rewrite skipn_length; clear - C5; lia). split.
      + intros GT G3. destruct (C6 GT G3) as (C8 & d' & C9 & C10). split; [clear - C8 C5 Q1 LO2 PK1 LOUT LAL A3; lia|]. exists d'. split; [exact C9|]. unfold extended in *. rewrite Q6, O44.
        replace (up + 8 + Z.to_nat (attr4 m up))%nat with (Z.to_nat (Z.of_nat up + 8 + attr4 m up)) by (clear - G1; lia). exact C10.
      + intros G3. destruct (C7 G3) as (C8 & C9). split; [rewrite O44; exact C8|]. rewrite Q6. exact C9. }
  split; [|exists inn, l3'; split; [exact PK|exact CA]].
  assert (O44' : ~ In (oct o4 40) [1; 3] -> oct o4 44 = 0).
  { intros N. destruct CA as [CA1 CA2]. destruct (Z.eq_dec (attr4 m up) 0) as [Z|Z]; [apply CA1; (left; exact Z) || (right; exact Y)|].
    destruct (Z.eq_dec (Z.of_nat (length m) - Z.of_nat (up + 8) - attr4 m up) 0) as [Y|Y]; [apply CA1; (left; exact Z) || (right; exact Y)|].
    pose proof (oct_u8 m (up + 5) F) as U. unfold is_u8 in U. change (2^8) with 256 in U. 
    apply CA2; [unfold attr4 in *; clear - Z U; lia| |left; exact N]. pose proof (handle6_fits up m o2 o3 ltac:(clear - B1; lia) B3 HX) as HF. unfold attr4 in *. clear - HF Z Y. lia. }
  assert (W46 : word (skipn 40 o4) 6 = word h 6) by (apply word_same; rewrite oct_skipn; cbn [Nat.add]; [apply (HH 6%nat); clear; lia|apply (HH 7%nat); clear; lia]).
  assert (O45 : oct o4 (40 + 5) = oct h 5) by (apply HH; clear; lia).
  assert (RS : ~ In (oct o4 40) [1; 3] -> 0 <= rest h < 16777216 -> rest (skipn 40 o4) = rest h).
  { intros N RB'. unfold rest. rewrite W46. f_equal. f_equal. apply word_same; rewrite oct_skipn; [|exact O45]. change (40 + 4)%nat with 44%nat. rewrite (O44' N).
    unfold rest, word in RB'. pose proof (oct_u8 h 4 H2) as U4. pose proof (oct_u8 h 5 H2) as U5. pose proof (oct_u8 h 6 H2) as U6. pose proof (oct_u8 h 7 H2) as U7.
    unfold is_u8 in *. change (2^8) with 256 in *. clear - RB' U4 U5 U6 U7. cbn [Nat.add] in *. lia. }
  unfold rest46. rewrite !oct_skipn, !Nat.add_0_r, W46, O45. clear - H2 H3 H5 H6 H7 H8 RS F.
  destruct H3 as (lo & hi & n & RL & RC & _).
  split. { intros T. specialize (H8 T). pose proof (oct_u8 h 4 H2) as U4. pose proof (oct_u8 h 5 H2) as U5. pose proof (oct_u8 h 6 H2) as U6. pose proof (oct_u8 h 7 H2) as U7.
    unfold is_u8, rest, word in *. change (2^8) with 256 in *. clear - H8 U4 U5 U6 U7. cbn [Nat.add] in *. lia. }
  split. { intros T T1. rewrite RS, (H6 T T1); [reflexivity| |lia]. intros N. clear - RL RC T T1 N. rewrite T, T1 in *. cbn [rules46 In] in *.
    repeat (destruct RL as [RL|RL]; [injection RL; intros; subst; clear RL; try discriminate; lia|]). exact RL. }
  split.
  - intros T T1 i adv x E I M D P AW A0 LX. specialize (H5 T T1). rewrite E in H5.
    assert (W6 : is_u16 (word (skipn up m) 6)) by (apply word_u16, skipn_u8, F).
    destruct (C36_frag_needed_partial (y_plateaus e) (word (skipn up m) 6) i (Some (y_mtu e)) (word m (q + 2)) adv x D P W6 I ltac:(intros o EO; injection EO as <-; exact M) AW A0 LX) as [C _].
    rewrite C in H5. assert (AD : adv < 65536).
    { unfold is_u16 in W6. change (2^16) with 65536 in W6. destruct (Z.eq_dec (word (skipn up m) 6) 0) as [Z|Z]; [|specialize (AW Z); lia].
      destruct (A0 Z) as [(A & _)|(_ & A)]; [|lia]. rewrite Forall_forall in P. specialize (P _ A). unfold is_u16 in P. lia. }
    assert (X : x <= adv + 20) by (apply LX; left; reflexivity).
    rewrite u32_mod, Z.mod_small in H5 by (clear - AD X; lia). rewrite RS; [exact H5| |clear - H5 AD X; lia].
    intros N. clear - RL RC T T1 N. rewrite T, T1 in *. cbn [rules46 In] in *.
    repeat (destruct RL as [RL|RL]; [injection RL; intros; subst; clear RL; try discriminate; lia|]). exact RL.
  - intros T. specialize (H7 T). rewrite RS; [exact H7| |].
    + intros N. clear - RL RC T N. rewrite T in *. cbn [rules46 In] in *.
      repeat (destruct RL as [RL|RL]; [injection RL; intros; subst; clear RL; try discriminate; lia|]). exact RL.
    + destruct H7 as (a & b & H7 & _). clear - H7. cbn [pointers46 In] in H7. repeat (destruct H7 as [H7|H7]; [injection H7; intros; lia|]). contradiction.
Qed.
End error46.
