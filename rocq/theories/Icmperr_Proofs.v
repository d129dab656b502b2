(** Lemmas about whole ICMP errors, IPv6 to IPv4. *)
Require Import Verif.Base Verif.Pool4_Model Verif.Rtrie_Model Verif.Nat64_Model Verif.Csum_Model Verif.Csum_Spec Verif.Csum_Proofs
  Verif.Csum_Properties Verif.Pkt_Model Verif.Pkt_Spec Verif.Pkt_Proofs Verif.Pkt_Properties
  Verif.Hdr_Model Verif.Hdr_Spec Verif.Hdr_Proofs Verif.Hdr_Properties Verif.Ext_Model Verif.Ext_Spec Verif.Ext_Proofs Verif.Ext_Properties
  Verif.Xlat_Model Verif.Xlat_Spec Verif.Xlat_Proofs Verif.Icmperr_Spec.
Local Ltac Zify.zify_post_hook ::= Z.div_mod_to_equations.

(** ** The inner segment *)

Lemma segment64_prop (P Q : Prop) ports s6 d6 s4 d4 p seg seg' : (P <-> Q) -> segment64 P ports s6 d6 s4 d4 p seg seg' -> segment64 Q ports s6 d6 s4 d4 p seg seg'.
Proof. intros E (A & B & C & D). unfold segment64 in *. rewrite <- E. tauto. Qed.

Lemma seg64_keeps p le s ports s6 d6 s4 d4 seg k : segment64 (s = CS_PARTIAL) ports s6 d6 s4 d4 p seg (seg64_of le s ports s6 d6 s4 d4 p seg) ->
  (p = 6 -> (20 <= k)%nat) -> (p = 17 \/ p = 58 -> (8 <= k)%nat) ->
  length (seg64_of le s ports s6 d6 s4 d4 p seg) = length seg /\ skipn k (seg64_of le s ports s6 d6 s4 d4 p seg) = skipn k seg.
Proof.
  intros (A & B & C & D) K6 K8. set (x := seg64_of le s ports s6 d6 s4 d4 p seg) in *.
  destruct (Z.eq_dec p 6) as [E|E6].
  { destruct (A E) as [(S1 & S2 & _) _]. split; [exact S1|]. apply skipn_eq; [exact S1|]. intros i Hi. specialize (K6 E).
    destruct (le_lt_dec (length seg) i) as [O|O]; [rewrite !nth_overflow by lia; reflexivity|apply S2; lia]. }
  destruct (Z.eq_dec p 17) as [E|E17].
  { destruct (B E) as [(S1 & S2 & _) _]. split; [exact S1|]. apply skipn_eq; [exact S1|]. intros i Hi. specialize (K8 (or_introl E)).
    destruct (le_lt_dec (length seg) i) as [O|O]; [rewrite !nth_overflow by lia; reflexivity|apply S2; lia]. }
  destruct (Z.eq_dec p 58) as [E|E58].
  { destruct (C E) as (_ & (S1 & _ & S2) & _). split; [exact S1|]. apply skipn_eq; [exact S1|]. intros i Hi. specialize (K8 (or_intror E)). apply S2. lia. }
  rewrite (D E6 E17 E58). split; reflexivity.
Qed.

Definition proto_of (icmp p : Z) : proto := if p =? 6 then TCP else if p =? 17 then UDP else if p =? icmp then ICMP else OTHER.

Lemma l4_step64 e ports s6 d6 s4 d4 l m p up l4 uo h :
  let seg := skipn up m in
  datagram seg -> good_ports ports -> (p = 6 -> (20 <= l4)%nat) -> (p = 17 \/ p = 58 -> l4 = 8%nat) -> (up + l4 <= l)%nat -> (l <= length m)%nat ->
  (p = 58 -> port_id (x_ports e) = option_map fst ports) -> length h = uo ->
  match ttp64_l4 e ports s6 d6 s4 d4 l m (proto_of 58 p) up l4 uo (h ++ seg) with
  | XOk o => exists seg', o = h ++ seg' /\ length seg' = length seg /\ Forall is_u8 seg' /\ segment64 (x_sum e = CS_PARTIAL) ports s6 d6 s4 d4 p seg seg'
  | XDrop j => p = 58 /\ (icmp6_error_type (oct m up) \/ (j = J_UNKNOWN_ICMP6_TYPE /\ forall t c, ~ becomes rules64 (oct m up) (oct m (up + 1)) t c))
  | _ => False
  end.
Proof.
  intros seg D G L6 L8 LU LM PI H. unfold proto_of, ttp64_l4. fold seg.
  assert (LS : (l4 <= length seg)%nat) by (unfold seg; rewrite skipn_length; lia).
  assert (F8 : Forall is_u8 seg) by apply D.
  assert (UC : p = 58 -> is_u8 (oct m up) /\ is_u8 (oct m (up + 1))).
  { intros E. specialize (L8 (or_intror E)). split.
    - replace (oct m up) with (oct seg 0) by (unfold seg; rewrite oct_skipn; f_equal; lia). apply oct_u8. exact F8.
    - replace (oct m (up + 1)) with (oct seg 1) by (unfold seg; rewrite oct_skipn; f_equal; lia). apply oct_u8. exact F8. }
  destruct (p =? 6) eqn:E6.
  { assert (E : p = 6) by lia. specialize (L6 E). rewrite Nat.max_r by lia. rewrite direct_ok by lia. cbn [of_res xbind].
    assert (SG : segment64 (x_sum e = CS_PARTIAL) ports s6 d6 s4 d4 p seg (seg64_of (x_le e) (x_sum e) ports s6 d6 s4 d4 p seg))
      by (apply seg64_ok; try assumption; intros; lia).
    destruct (seg64_keeps p _ _ _ _ _ _ _ _ l4 SG) as [S1 S2]; [lia|lia|]. rewrite (put_head uo l4); [|exact H|lia| |].
    2, 3: revert S1 S2; unfold seg64_of; rewrite E6; tauto.
    exists (seg64_of (x_le e) (x_sum e) ports s6 d6 s4 d4 p seg). split; [unfold seg64_of; rewrite E6; reflexivity|]. split; [exact S1|].
    split; [apply seg64_u8; try assumption; lia|exact SG]. }
  destruct (p =? 17) eqn:E17.
  { assert (E : p = 17) by lia. specialize (L8 (or_introl E)). rewrite direct_ok by lia. cbn [of_res xbind].
    assert (SG : segment64 (x_sum e = CS_PARTIAL) ports s6 d6 s4 d4 p seg (seg64_of (x_le e) (x_sum e) ports s6 d6 s4 d4 p seg))
      by (apply seg64_ok; try assumption; intros; lia).
    destruct (seg64_keeps p _ _ _ _ _ _ _ _ 8 SG) as [S1 S2]; [lia|lia|]. rewrite (put_head uo 8); [|exact H|lia| |].
    2, 3: revert S1 S2; unfold seg64_of; rewrite E6, E17; tauto.
    exists (seg64_of (x_le e) (x_sum e) ports s6 d6 s4 d4 p seg). split; [unfold seg64_of; rewrite E6, E17; reflexivity|]. split; [exact S1|].
    split; [apply seg64_u8; try assumption; lia|exact SG]. }
  destruct (p =? 58) eqn:E58.
  { assert (E : p = 58) by lia. specialize (L8 (or_intror E)). rewrite direct_ok by lia. cbn [of_res xbind]. change byte with oct.
    destruct (UC E) as [U0 U1]. rewrite type64_applied by assumption.
    destruct (applied rules64 (oct m up) (oct m (up + 1))) as [[t c]|] eqn:A; cbn [xbind].
    2: { split; [exact E|]. right. split; [reflexivity|]. apply applied_none; [exact disjoint64|exact A]. }
    destruct ((oct m up =? 128) || (oct m up =? 129)) eqn:T.
    - assert (SG : segment64 (x_sum e = CS_PARTIAL) ports s6 d6 s4 d4 p seg (seg64_of (x_le e) (x_sum e) ports s6 d6 s4 d4 p seg)).
      { apply seg64_ok; try assumption; [intros; lia..|]. intros _. unfold seg. rewrite oct_skipn, Nat.add_0_r. lia. }
      destruct (seg64_keeps p _ _ _ _ _ _ _ _ 8 SG) as [S1 S2]; [lia|lia|]. rewrite (PI E). rewrite (put_head uo 8); [|exact H|lia| |].
      2, 3: revert S1 S2; unfold seg64_of; rewrite E6, E17, E58; tauto.
      exists (seg64_of (x_le e) (x_sum e) ports s6 d6 s4 d4 p seg). split; [unfold seg64_of; rewrite E6, E17, E58; reflexivity|]. split; [exact S1|].
      split; [apply seg64_u8; try assumption; lia|exact SG].
    - split; [exact E|]. left. destruct (is_icmp6_error (oct m up)) eqn:X; [apply err6_iff; exact X|]. exfalso.
      assert (Y : xlat64_icmp_type (oct m up) (oct m (up + 1)) = XOk (t, c)) by (rewrite type64_applied by assumption; rewrite A; reflexivity).
      apply (echo_type64 [] (Meta 0 TCP 0 0)) in Y; [lia|]. intros Z. apply err6_iff in Z. congruence. }
  exists seg. split; [reflexivity|]. split; [reflexivity|]. split; [exact F8|]. unfold segment64. repeat split; try (intros; lia).
Qed.

(** The inner packet's protocol and header *)
Lemma inner_l4_spec icmp l m p up pay : Forall is_u8 m -> (icmp = 58 /\ p <> 1 \/ icmp = 1 /\ p <> 58) -> transport_end m icmp p up pay -> (pay <= l)%nat ->
  (p = 6 -> 5 <= oct m (up + 12) / 16) ->
  exists l4, inner_l4 l m p up = XOk (proto_of icmp p, l4) /\ pay = (up + l4)%nat /\ (p = 6 -> (20 <= l4)%nat) /\ (p = 17 \/ p = icmp -> l4 = 8%nat) /\ (l4 <= 60)%nat.
Proof.
  intros F I (T1 & T2 & T3) L DO. unfold inner_l4, proto_of. pose proof (oct_u8 m (up + 12) F) as U. unfold is_u8 in U. change (2^8) with 256 in U.
  destruct (p =? 6) eqn:E6.
  { destruct (T1 ltac:(lia)) as [A ->]. specialize (DO ltac:(lia)). rewrite direct_ok by lia. cbn [of_res xbind]. unfold tcp_hlen. change byte with oct. eexists. split; [reflexivity|]. split; [reflexivity|].
    split; [intros _; lia|]. split; [intros; lia|lia]. }
  destruct (p =? 17) eqn:E17. { rewrite T2 by lia. exists 8%nat. repeat split; intros; lia. }
  destruct (p =? icmp) eqn:EI. { rewrite T2 by lia. replace ((p =? 1) || (p =? 58)) with true by lia. exists 8%nat. repeat split; intros; lia. }
  rewrite T3 by lia. replace ((p =? 1) || (p =? 58)) with false by lia. exists 0%nat. repeat split; intros; lia.
Qed.

(** ** Octets *)

Lemma xok_inj {A} (x y : A) : XOk x = XOk y -> x = y.
Proof. intros H. injection H as H. exact H. Qed.
Lemma fast_csum_u8 le out : Forall is_u8 out -> Forall is_u8 (ip_fast_csum le out).
Proof.
  intros F. unfold ip_fast_csum. cbv zeta. assert (F2 : Forall is_u8 (put 10 [0; 0] out)) by (apply put_u8; [apply u8_00|exact F]).
  apply put_u8; [|exact F2]. apply st16_u8. apply csum_fold_u16. apply csum_partial_spec; [apply firstn_u8; exact F2|unfold is_u32; lia].
Qed.
Lemma update_total_u8 le out : Forall is_u8 out -> Forall is_u8 (update_total_length le out).
Proof.
  intros F. unfold update_total_length. cbv zeta. destruct (_ =? _); [exact F|].
  assert (F2 : Forall is_u8 (put 2 (octets 2 (u16 (Z.of_nat (length out)))) out)) by (apply put_u8; [apply octets_u8|exact F]).
  set (x := put 2 _ out) in *. apply fast_csum_u8. apply put_u8; [|exact F2].
  pose proof (oct_u8 x 6 F2) as A. pose proof (oct_u8 x 7 F2) as B. change byte with oct. constructor; [|constructor; [exact B|constructor]].
  unfold is_u8 in *. change (2^8) with 256 in *. lia.
Qed.
Lemma update_total_len le out : (20 <= length out)%nat -> length (update_total_length le out) = length out.
Proof.
  intros L. unfold update_total_length, ip_fast_csum. cbv zeta. destruct (_ =? _); [reflexivity|].
  repeat (rewrite put_length; [|rewrite ?st16_length, ?octets_length; cbn [length]]); rewrite ?st16_length, ?octets_length; cbn [length]; try lia.
  all: repeat (rewrite put_length; [|rewrite ?st16_length, ?octets_length; cbn [length]]); rewrite ?st16_length, ?octets_length; cbn [length]; try lia.
Qed.
Lemma copy_bits_u8 src off len room r : Forall is_u8 src -> copy_bits src off len room = XOk r -> Forall is_u8 r.
Proof.
  intros F. unfold copy_bits. destruct (len <? 0); [discriminate|]. destruct (_ <? off); [discriminate|]. destruct (room <? len); [discriminate|].
  intros [= <-]. apply firstn_u8, skipn_u8, F.
Qed.
Lemma fix_ie_u8 ohl inp out a b c d r : Forall is_u8 inp -> Forall is_u8 out -> fix_ie ohl inp out a b c d = XOk r -> Forall is_u8 r.
Proof.
  intros Fi Fo. unfold fix_ie. cbv zeta. destruct (_ <? 0); [discriminate|].
  destruct (copy_bits out 0 _ _) as [x| | |] eqn:X; cbn [xbind]; try discriminate.
  destruct (copy_bits out ohl _ _) as [y| | |] eqn:Y; cbn [xbind]; try discriminate.
  apply copy_bits_u8 in X; [|exact Fo]. apply copy_bits_u8 in Y; [|exact Fo].
  destruct (d =? 0). { destruct (c =? 0); [|discriminate]. intros E. apply xok_inj in E. subst r. apply Forall_app; split; assumption. }
  destruct (_ || _); [discriminate|]. destruct (copy_bits inp _ _ _) as [z| | |] eqn:ZZ; cbn [xbind]; try discriminate.
  apply copy_bits_u8 in ZZ; [|exact Fi]. intros E. apply xok_inj in E. subst r. repeat (apply Forall_app; split; [assumption|]). apply Forall_app; split; [|assumption].
  apply Forall_forall. intros v V. apply repeat_spec in V. subst. unfold is_u8. lia.
Qed.
Lemma handle_u8 max bits force ipl hin hout inp out f r : Forall is_u8 inp -> Forall is_u8 out ->
  handle_icmp_extension max bits force ipl hin hout inp out = XOk (f, r) -> Forall is_u8 r.
Proof.
  intros Fi Fo. unfold handle_icmp_extension. cbv zeta. destruct (ipl =? 0); [intros E; injection E as _ <-; exact Fo|].
  destruct (ipl =? _); [intros E; injection E as _ <-; exact Fo|]. destruct (_ <? ipl); [discriminate|].
  destruct (_ || _).
  - destruct (fix_ie _ _ _ _ _ _ _) as [x| | |] eqn:X; cbn [xbind]; try discriminate. intros E. injection E as _ <-. exact (fix_ie_u8 _ _ _ _ _ _ _ _ Fi Fo X).
  - destruct (fix_ie _ _ _ _ _ _ _) as [x| | |] eqn:X; cbn [xbind]; try discriminate. intros E. injection E as _ <-. exact (fix_ie_u8 _ _ _ _ _ _ _ _ Fi Fo X).
Qed.
Lemma handle4_u8 le l4 inp out r : Forall is_u8 inp -> Forall is_u8 out -> handle_icmp4_extension le l4 inp out = XOk r -> Forall is_u8 r.
Proof.
  intros Fi Fo. unfold handle_icmp4_extension. destruct (handle_icmp_extension _ _ _ _ _ _ _ _) as [[f x]| | |] eqn:X; cbn [xbind]; try discriminate.
  intros E. apply xok_inj in E. subst r. apply update_total_u8. apply put_u8; [apply u8_one|]. exact (handle_u8 _ _ _ _ _ _ _ _ _ _ Fi Fo X).
Qed.

Lemma handle4_len le l4 inp out P l3 r : Forall is_u8 inp -> Forall is_u8 out -> (length inp = l4 + 8 + P)%nat -> (length out + l3 = 48 + P)%nat ->
  Z.of_nat (length inp) < 65536 + 40 -> Z.of_nat (length out) < 65536 -> (l3 <= P)%nat -> (8 * oct inp (l4 + 4) <> 0 -> Z.of_nat l3 <= 8 * oct inp (l4 + 4)) ->
  handle_icmp4_extension le l4 inp out = XOk r -> (28 <= length r)%nat.
Proof.
  intros Fi Fo L1 L2 L3 L4 L5 A. unfold handle_icmp4_extension. change (byte inp (l4 + 4)) with (oct inp (l4 + 4)).
  set (ipl := 8 * oct inp (l4 + 4)) in *. pose proof (oct_u8 inp (l4 + 4) Fi) as U. unfold is_u8 in U. change (2^8) with 256 in U.
  change 28 with (Z.of_nat 28).
  destruct (Z.eq_dec ipl 0) as [Z0|Z0].
  { unfold handle_icmp_extension. rewrite (proj2 (Z.eqb_eq _ _) Z0). cbn [xbind]. intros E. apply xok_inj in E. subst r. rewrite update_total_len; rewrite put_length; cbn [length]; lia. }
  assert (R := handle_spec 576 2 false ipl (Z.of_nat l4 + 8) 28 (Z.of_nat P) (20 - Z.of_nat l3) inp out ltac:(lia) ltac:(lia) ltac:(lia) ltac:(lia) ltac:(lia) ltac:(lia) ltac:(lia) ltac:(lia) ltac:(lia) ltac:(lia) ltac:(lia)).
  destruct (handle_icmp_extension _ _ _ _ _ _ _ _) as [[f o1]|j|j e inf|]; cbn [xbind]; try discriminate. change (2 ^ 2) with 4 in R.
  destruct (result_headers 4 576 false ipl (Z.of_nat P) (Z.of_nat l4 + 8) (20 - Z.of_nat l3) 28 inp out f o1 R) as (R1 & R2 & R3 & R4 & R5); try lia; try assumption.
  intros E. apply xok_inj in E. subst r. rewrite update_total_len; rewrite put_length; cbn [length]; lia.
Qed.

(** ** Trimming and the checksum *)

Lemma ipv4_df m tos len id (df df' more : Prop) off ttl pr src dst : (df <-> df') ->
  ipv4_header m 0 tos len id df more off ttl pr src dst -> ipv4_header m 0 tos len id df' more off ttl pr src dst.
Proof. intros E H. unfold ipv4_header in *. rewrite <- E. exact H. Qed.

Definition finish64 (le : bool) (out : list Z) : list Z :=
  let t := trim_576 le out in firstn 20 t ++ compute_icmp4_csum le (skipn 20 t).
Lemma finish64_spec le out tos len id df more off ttl pr src dst :
  Forall is_u8 out -> (28 <= length out)%nat -> ipv4_header out 0 tos len id df more off ttl pr src dst -> len = Z.of_nat (length out) ->
  let o := finish64 le out in
  length o = Nat.min (length out) 576 /\ Forall is_u8 o
  /\ ipv4_header o 0 tos (Z.of_nat (length o)) id (df /\ (length out <= 576)%nat) more off ttl pr src dst
  /\ checks (skipn 20 o) /\ (forall i, (20 <= i < 28)%nat -> i <> 22%nat -> i <> 23%nat -> oct o i = oct out i)
  /\ skipn 28 o = firstn (576 - 28) (skipn 28 out).
Proof.
  intros F L H E. destruct (C41_trim_64 le out tos len id df more off ttl pr src dst F ltac:(lia) H E) as (T1 & T2 & T3).
  assert (FT : Forall is_u8 (trim_576 le out)).
  { unfold trim_576. destruct (length out <=? 576)%nat; [exact F|]. apply update_total_u8. apply firstn_u8. exact F. }
  unfold finish64. cbv zeta. set (t := trim_576 le out) in *. clearbody t.
  destruct (compute4_ok le (skipn 20 t)) as (c & -> & Uc & K); [apply skipn_u8; exact FT|rewrite skipn_length; lia|].
  set (x := put 2 (st16 le c) (skipn 20 t)) in *.
  assert (LX : length x = (length t - 20)%nat) by (unfold x; rewrite put_length; rewrite ?st16_length, skipn_length; lia).
  assert (L20 : length (firstn 20 t) = 20%nat) by (rewrite firstn_length; lia).
  assert (LO : length (firstn 20 t ++ x) = length t) by (rewrite app_length; lia).
  assert (FX : Forall is_u8 x) by (apply put_u8; [apply st16_u8; exact Uc|apply skipn_u8; exact FT]).
  assert (S20 : skipn 20 (firstn 20 t ++ x) = x) by (rewrite skipn_app, L20, skipn_all2 by lia; reflexivity).
  split; [lia|]. split; [apply Forall_app; split; [apply firstn_u8; exact FT|exact FX]|].
  split; [rewrite LO; apply (header4_firstn t); [rewrite firstn_app_l by lia; rewrite firstn_firstn; reflexivity|exact T3]|].
  rewrite S20. split; [exact K|]. split.
  - intros i I I2 I3. unfold oct. rewrite app_nth2 by lia. rewrite L20. unfold x. fold (oct (put 2 (st16 le c) (skipn 20 t)) (i - 20)).
    rewrite oct_put_out by (rewrite st16_length, ?skipn_length; lia). rewrite T2, oct_skipn. replace (20 + (i - 20))%nat with i by lia. apply oct_firstn. lia.
  - change 28%nat with (20 + 8)%nat at 1. rewrite skipn_plus, S20. unfold x. rewrite skipn_put by (rewrite st16_length, ?skipn_length; lia).
    rewrite T2, <- skipn_plus. cbn [Nat.add]. change 576%nat with (28 + (576 - 28))%nat at 1. rewrite <- firstn_skipn_comm. reflexivity.
Qed.

(** ** The inner packet *)

Section error64.
Context (e : env64) (m : list Z) (lin l : nat) (mt : meta) (hs : list (Z * nat)).
Context (F : Forall is_u8 m) (V : view6 m lin l mt hs 58).
Let up := l4off mt.
Let q := payoff mt.
Context (ER : icmp6_error_type (oct m up)) (W44 : where_is 44 hs = None).
Context (hs' : list (Z * nat)) (p' : Z) (up' pay' : nat).
Context (IN : inner6 m q hs' p' up' pay') (PL : (pay' <= l)%nat) (LAST : hdr_iterator_last l m q = Ok (p', up')).
Context (W44' : where_is 44 hs' = None) (P1 : p' <> 1) (DO : p' = 6 -> 5 <= oct m (up' + 12) / 16).
Context (NT : is_u8 (new_tos (x_tos e))) (ID : is_u16 (x_id e)) (US : is_u32 (x_src e)) (UD : is_u32 (x_dst e)).
Context (ID' : is_u16 (x_id' e)) (US' : is_u32 (x_src' e)) (UD' : is_u32 (x_dst' e)).
Context (GP : good_ports (x_ports e)) (PE : p' = 58 -> forall a b, x_ports e = Some (a, b) -> a = b).
Context (NP : x_sum e <> CS_PARTIAL).

Lemma e_facts : (40 <= up)%nat /\ q = (up + 8)%nat /\ (q + 40 <= up' <= pay')%nat /\ (l <= length m)%nat /\ Z.of_nat (length m) <= 65575.
Proof.
  pose proof (o_pay m lin l mt hs 58 F V) as (O1 & O2). destruct V as [PK]. destruct PK as (LM & _ & T & _ & _ & W).
  destruct (W eq_refl) as (W1 & _). assert (FP : first_piece m hs) by (unfold first_piece; rewrite W44; exact Logic.I).
  destruct (T FP) as (_ & T2 & _). pose proof (word_u16 m 4 F) as U. unfold is_u16 in U. change (2^16) with 65536 in U.
  destruct IN as (I1 & _ & C & _ & (E1 & E2 & E3) & I2 & _). pose proof (chain_le _ _ _ _ _ _ C).
  split; [unfold up; lia|]. split; [unfold q, up; rewrite T2 by tauto; reflexivity|]. split; [|split; [lia|lia]]. split; [lia|].
  destruct (Z.eq_dec p' 6) as [X|X]; [destruct (E1 X); lia|]. destruct (Z.eq_dec p' 17) as [Y|Y]; [rewrite E2 by tauto; lia|].
  destruct (Z.eq_dec p' 58) as [Z|Z]; [rewrite E2 by tauto; lia|]. rewrite E3 by assumption. lia.
Qed.
Lemma e_first : first6 m mt = true.
Proof. apply (o_first m lin l mt hs 58 V). unfold first_piece. rewrite W44. exact Logic.I. Qed.
Lemma e_error : error6 m mt = true.
Proof. apply (o_error m lin l mt hs 58 V). split; [reflexivity|exact ER]. Qed.
Lemma e_fhdr : fhdr mt = O.
Proof. rewrite (v_fh _ _ _ _ _ _ V). unfold fh_of. rewrite W44. reflexivity. Qed.

Lemma e_flow : match compute_flowix64 e l m mt with
  | XOk _ => True
  | XDrop j => j = J_UNKNOWN_ICMP6_TYPE /\ forall t c, ~ becomes rules64 (oct m up) (oct m (up + 1)) t c
  | _ => False end.
Proof.
  destruct e_facts as (A1 & A2 & A3 & A4 & A5).
  unfold compute_flowix64. rewrite (o_proto m lin l mt hs 58 V). cbn [xbind]. cbn [proto64 Z.eqb Pos.eqb orb].
  fold up. rewrite direct_ok by lia. cbn [of_res xbind]. change byte with oct. rewrite type64_applied by (apply oct_u8; assumption).
  destruct (applied rules64 (oct m up) (oct m (up + 1))) as [[t c]|] eqn:A; cbn [xbind].
  2: { split; [reflexivity|]. apply applied_none; [exact disjoint64|exact A]. }
  destruct (_ || _); [exact Logic.I|]. unfold internal_addresses64. destruct (x_ports e); [exact Logic.I|].
  fold q. rewrite LAST. cbn [of_res xbind fst snd]. destruct IN as (_ & _ & _ & _ & TE & _).
  destruct (inner_l4_spec 58 l m p' up' pay' F ltac:(tauto) TE PL DO) as (l4 & -> & _). cbn [xbind]. rewrite direct_ok by lia. exact Logic.I.
Qed.

Lemma e_inner out : Forall is_u8 out -> length out = (48 + (length m - up'))%nat -> skipn 48 out = skipn up' m ->
  match inner64 e l m mt out with
  | XOk o => exists inn, o = firstn 28 out ++ inn
      /\ inner_packet64 (rev_ports (x_ports e)) (tos64 (x_tos e) m q) (x_id' e) (x_src' e) (x_dst' e) m q hs' p' up' inn
  | XDrop j => j = J_UNKNOWN_ICMP6_TYPE /\ p' = 58 /\ forall t c, ~ becomes rules64 (oct m up') (oct m (up' + 1)) t c
  | _ => False
  end.
Proof.
  intros FO LO S48. destruct e_facts as (A1 & A2 & A3 & A4 & A5).
  unfold inner64. fold q. rewrite LAST. cbn [of_res xbind fst snd]. destruct IN as (I1 & I2 & C & I4 & TE & I5 & NE).
  destruct (inner_l4_spec 58 l m p' up' pay' F ltac:(tauto) TE PL DO) as (l4 & -> & EP & L6 & L8 & L60). cbn [xbind]. rewrite e_fhdr.
  destruct (int64_spec (x_le e) (x_tos e) (x_id' e) (x_src' e) (x_dst' e) (Skb (Z.of_nat (length m)) (Z.of_nat l) (x_flist e) (x_gso e)) l m q hs' p' up' (proto_of 58 p')
    (Z.of_nat (up' - q + l4)) (Z.of_nat (20 + l4)) (skipn 28 out) F (skipn_u8 28 _ FO) ltac:(rewrite skipn_length; lia) A4 C ltac:(lia) NT ID' US' UD') as (i & -> & B1 & B2 & B3 & B4).
  cbn [xbind]. rewrite skipn_length in B1.
  replace (firstn 28 out ++ i) with ((firstn 28 out ++ firstn 20 i) ++ skipn up' m).
  2: { rewrite <- app_assoc. f_equal. rewrite <- (firstn_skipn 20 i) at 2. f_equal. rewrite B3, <- skipn_plus. symmetry. exact S48. }
  assert (LF : length (firstn 28 out) = 28%nat) by (rewrite firstn_length; lia). assert (LI : length (firstn 20 i) = 20%nat) by (rewrite firstn_length; lia).
  assert (DG : datagram (skipn up' m)) by (split; [apply skipn_u8; exact F|rewrite skipn_length; lia]).
  assert (GR : good_ports (rev_ports (x_ports e))) by (destruct (x_ports e) as [[? ?]|]; cbn in *; tauto).
  rewrite !be128_field.
  pose proof (l4_step64 e (rev_ports (x_ports e)) (field m (q + 8) 16) (field m (q + 24) 16) (x_src' e) (x_dst' e) l m p' up' l4 48 (firstn 28 out ++ firstn 20 i)
    DG GR L6 L8 ltac:(lia) A4 ltac:(intros X; specialize (PE X); destruct (x_ports e) as [[a b]|]; [cbn; rewrite (PE a b eq_refl); reflexivity|reflexivity]) ltac:(rewrite app_length; lia)) as S.
  cbv zeta in S. destruct (ttp64_l4 _ _ _ _ _ _ _ _ _ _ _ _ _) as [o|j|j r i'|]; try (exfalso; exact S).
  2: { destruct S as [S1 [S2|S2]]; [elim (NE S1 S2)|tauto]. }
  destruct S as (seg' & -> & S1 & S2 & S3). exists (firstn 20 i ++ seg'). split; [rewrite app_assoc; reflexivity|].
  rewrite skipn_length in S1.
  unfold inner_packet64. split; [rewrite app_length; lia|]. split; [apply Forall_app; split; [apply firstn_u8; exact B2|exact S2]|].
  assert (LE : (20 + (40 + word m (q + 4) - Z.of_nat (up' - q))) mod 65536 = u16 (u32 (40 + word m (q + 4) - Z.of_nat (up' - q + l4) + Z.of_nat (20 + l4)))).
  { rewrite u16_mod, u32_mod. replace (40 + word m (q + 4) - Z.of_nat (up' - q + l4) + Z.of_nat (20 + l4)) with (20 + (40 + word m (q + 4) - Z.of_nat (up' - q))) by lia.
    set (v := 20 + _). lia. }
  rewrite LE. unfold id64, df64, more64, off64. rewrite W44'. split.
  - apply (header4_firstn i); [rewrite firstn_app_l by lia; rewrite firstn_firstn; reflexivity|exact B4].
  - rewrite skipn_app, LI, (skipn_all2 (firstn 20 i)) by lia. cbn [app skipn Nat.sub]. apply (segment64_prop (x_sum e = CS_PARTIAL)); [tauto|exact S3].
Qed.

Context (ATTR : attr6 m up <> 0 -> Z.of_nat (up' - q) <= attr6 m up).
Context (MT : forall mtu, x_mtu e = Some mtu -> 0 <= mtu < 4294967276).

Lemma rest_skipn (a : list Z) k : rest (skipn k a) = 65536 * word a (k + 4) + word a (k + 6).
Proof. unfold rest, word. rewrite !oct_skipn, !Nat.add_assoc. reflexivity. Qed.
Lemma word_same a b i j : oct a i = oct b j -> oct a (i + 1) = oct b (j + 1) -> word a i = word b j.
Proof. intros A B. unfold word. rewrite A, B. reflexivity. Qed.

Lemma e_all :
  match xlat64 e l m mt with
  | XOk o => 1 < oct m 7 /\ routing_done m hs /\ (x_sum e = CS_NONE -> ok6 (field m 8 16) (field m 24 16) 58 (skipn up m))
      /\ (length o <= 576)%nat /\ Forall is_u8 o
      /\ ipv4_header o 0 (flow_tos (x_tos e) (tos64 (x_tos e) m 0)) (Z.of_nat (length o)) (x_id e) False False 0 (oct m 7 - 1) 1 (x_src e) (x_dst e)
      /\ checks (skipn 20 o) /\ becomes rules64 (oct m up) (oct m (up + 1)) (oct o 20) (oct o 21)
      /\ rest64 (x_inmtu e) (x_mtu e) (skipn up m) (skipn 20 o)
      /\ exists inn, inner_packet64 (rev_ports (x_ports e)) (tos64 (x_tos e) m q) (x_id' e) (x_src' e) (x_dst' e) m q hs' p' up' inn
         /\ carried64 m up up' inn o
  | XIcmp j r i => (j = J64_TTL /\ r = E_TTL /\ i = 0 /\ oct m 7 <= 1)
      \/ (j = J64_SEGMENTS_LEFT /\ r = E_HDR_FIELD /\ exists q, where_is 43 hs = Some q /\ oct m (q + 3) <> 0 /\ i = Z.of_nat (q + 3))
  | XDrop j => (forall t c, ~ becomes rules64 (oct m up) (oct m (up + 1)) t c)
      \/ (oct m up = 4 /\ oct m (up + 1) = 0 /\ forall p, ~ points pointers64 (rest (skipn up m)) p)
      \/ (j = J64_ICMP_CSUM /\ x_sum e = CS_NONE /\ ~ ok6 (field m 8 16) (field m 24 16) 58 (skipn up m))
      \/ (j = J_UNKNOWN_ICMP6_TYPE /\ p' = 58 /\ forall t c, ~ becomes rules64 (oct m up') (oct m (up' + 1)) t c)
      \/ (j = J_ICMPEXT_BIG /\ Z.of_nat (length m - (up + 8)) < attr6 m up)
  | XUB => False
  end.
Proof.
  destruct e_facts as (A1 & A2 & A3 & A4 & A5).
  unfold xlat64, ttp64_alloc_skb. fold up q. pose proof e_flow as FL. destruct (compute_flowix64 e l m mt) as [[]|j|j r i|]; cbn [xbind]; try (exfalso; exact FL).
  2: { left. tauto. }
  replace (validate_size _ _ _ _ _ _) with (@XOk unit tt) by (unfold validate_size; rewrite e_error; destruct (x_mtu e); reflexivity). cbn [xbind].
  rewrite e_first, e_error. cbn [andb]. rewrite LAST. cbn [of_res xbind fst snd].
  replace (repushed [] m up' (20 + (q - up) + 20)) with (skipn (up' - 48) m).
  2: { symmetry. replace (20 + (q - up) + 20)%nat with (20 + (up' - (up' - 28)))%nat by lia. rewrite repushed_skip by lia. f_equal. lia. }
  set (al := skipn (up' - 48) m).
  assert (LA : length al = (48 + (length m - up'))%nat) by (unfold al; rewrite skipn_length; lia).
  assert (FA : Forall is_u8 al) by (apply skipn_u8; exact F).
  pose proof (ext64_spec (x_le e) (x_tos e) (x_id e) (x_src e) (x_dst e) (Skb (Z.of_nat (length m)) (Z.of_nat l) (x_flist e) (x_gso e)) l m hs 58 up (l4p mt)
    (Z.of_nat (20 + (q - up))) al F FA ltac:(lia) A4 (o_chain m lin l mt hs 58 V) ltac:(lia) NT ID US UD) as X.
  rewrite (v_fh _ _ _ _ _ _ V).
  destruct (ttp64_ipv4_external _ _ _ _ _ _ _ _ _ _ _ _) as [o|j|j r i|]; cbn [xbind]; try (exfalso; exact X).
  2: { destruct X as [X|X]; [left; exact X|right; destruct X as (X1 & X2 & _ & X3); split; [exact X1|]; split; [exact X2|exact X3]]. }
  destruct X as (X1 & X2 & X3 & X4 & X5 & X6).
  unfold id64, df64, more64, off64 in X6. rewrite W44 in X6.
  assert (XU : u16 (Z.of_nat (length al)) = Z.of_nat (length al)) by (rewrite u16_mod; apply Z.mod_small; lia). rewrite XU in X6.
  set (df0 := generate_df_flag _ _ _ _ _ _ = true) in X6.
  assert (DF0 : df0 -> 1260 < Z.of_nat (length al)).
  { unfold df0, generate_df_flag. rewrite (proj2 (v_icmp _ _ _ _ _ _ V) eq_refl). cbn [flist gso]. destruct (x_flist e); [|discriminate].
    destruct (negb _); [discriminate|]. lia. }
  clearbody df0.
  unfold ttp64_icmp_error. fold up. rewrite direct_ok by lia. cbn [of_res xbind].
  assert (L8 : length (firstn 8 (skipn up m)) = 8%nat) by (rewrite firstn_length, skipn_length; lia).
  assert (L8o : length (firstn 8 (skipn 20 o)) = 8%nat) by (rewrite firstn_length, skipn_length; lia).
  pose proof (icmp64_spec (port_id (x_ports e)) (x_inmtu e) (x_mtu e) (firstn 8 (skipn up m)) (firstn 8 (skipn 20 o)) L8 L8o
    (firstn_u8 8 _ (skipn_u8 up _ F)) ltac:(destruct (x_ports e) as [[? ?]|]; [apply GP|exact Logic.I])) as H.
  assert (H0 : forall i, (i < 8)%nat -> oct (firstn 8 (skipn up m)) i = oct m (up + i)) by (intros i Hi; rewrite oct_firstn, oct_skipn by lia; reflexivity).
  assert (HR : rest (firstn 8 (skipn up m)) = rest (skipn up m)) by (unfold rest, word; rewrite !oct_firstn by lia; reflexivity).
  destruct (icmp64_header _ _ _ _ _) as [h|j|j r i|]; cbn [xbind]; try (exfalso; exact H).
  2: { rewrite HR, !H0, Nat.add_0_r in H by lia. tauto. }
  rewrite HR, !H0, Nat.add_0_r in H by lia. destruct H as (H1 & H2 & H3 & H4 & _ & H5 & H6 & H7).
  set (out := put 20 h o).
  assert (LOUT : length out = length al) by (unfold out; rewrite put_length; lia).
  assert (FOUT : Forall is_u8 out) by (apply put_u8; assumption).
  assert (S48 : skipn 48 out = skipn up' m).
  { unfold out. rewrite skipn_put by lia. change 48%nat with (20 + 28)%nat. rewrite skipn_plus, X5, <- skipn_plus. unfold al. rewrite <- skipn_plus. f_equal. lia. }
  assert (OH : forall i, (i < 8)%nat -> oct out (20 + i) = oct h i).
  { intros i Hi. unfold out. rewrite oct_put_in by lia. unfold oct. f_equal. lia. }
  assert (HO : ipv4_header out 0 (flow_tos (x_tos e) (tos64 (x_tos e) m 0)) (Z.of_nat (length al)) (x_id e) df0 False 0 (oct m 7 - 1) (proto64 58) (x_src e) (x_dst e)).
  { apply (header4_firstn o); [unfold out; apply firstn_put_before; lia|exact X6]. }
  clearbody out. unfold post_icmp4error. fold up. rewrite !be128_field.
  assert (DG : datagram (skipn up m)) by (split; [apply skipn_u8; exact F|rewrite skipn_length; lia]).
  destruct (C33_errors64 (x_le e) (field m 8 16) (field m 24 16) (skipn up m) out DG FOUT ltac:(lia)) as [CK _].
  destruct (validate_icmp6_csum (x_le e) (x_sum e) (field m 8 16) (field m 24 16) (skipn up m)) eqn:VC; cbn [negb].
  2: { right. right. left. split; [reflexivity|]. assert (SN : x_sum e = CS_NONE) by (destruct (x_sum e); [reflexivity|discriminate VC..]).
    split; [exact SN|]. rewrite SN in VC. intros K. apply CK in K. congruence. }
  assert (VOK : x_sum e = CS_NONE -> ok6 (field m 8 16) (field m 24 16) 58 (skipn up m)) by (intros SN; apply CK; rewrite <- SN; exact VC).
  pose proof (e_inner out FOUT ltac:(lia) S48) as I.
  destruct (inner64 e l m mt out) as [o2|j|j r i|]; cbn [xbind]; try (exfalso; exact I).
  2: { tauto. }
  destruct I as (inn & -> & PI). pose proof PI as (PI1 & PI2 & _).
  set (o2 := firstn 28 out ++ inn). assert (L28 : length (firstn 28 out) = 28%nat) by (rewrite firstn_length; lia).
  assert (LO2 : length o2 = length al) by (unfold o2; rewrite app_length; lia).
  assert (FO2 : Forall is_u8 o2) by (apply Forall_app; split; [apply firstn_u8; exact FOUT|exact PI2]).
  assert (S28 : skipn 28 o2 = inn) by (unfold o2; rewrite skipn_app, L28, skipn_all2 by lia; reflexivity).
  assert (OO2 : forall i, (i < 28)%nat -> oct o2 i = oct out i).
  { intros i Hi. unfold o2, oct. rewrite app_nth1 by lia. apply nth_firstn_lt. exact Hi. }
  assert (HO2 : ipv4_header o2 0 (flow_tos (x_tos e) (tos64 (x_tos e) m 0)) (Z.of_nat (length al)) (x_id e) df0 False 0 (oct m 7 - 1) (proto64 58) (x_src e) (x_dst e)).
  { apply (header4_firstn out); [|exact HO]. unfold o2. rewrite firstn_app_l by lia. apply ff. lia. }
  clearbody o2. clear HO S48.
  change byte with oct. set (ext := (oct m up =? 1) || (oct m up =? 3)).
  assert (EX : match (if ext then handle_icmp4_extension (x_le e) up m o2 else XOk o2) with
    | XOk o3 => Forall is_u8 o3 /\ (28 <= length o3)%nat
        /\ (exists df3 : Prop, (df3 -> 1260 < Z.of_nat (length o3)) /\
             ipv4_header o3 0 (flow_tos (x_tos e) (tos64 (x_tos e) m 0)) (Z.of_nat (length o3)) (x_id e) df3 False 0 (oct m 7 - 1) (proto64 58) (x_src e) (x_dst e))
        /\ (forall i, (20 <= i < 28)%nat -> i <> 25%nat -> oct o3 i = oct out i) /\ (ext = false -> oct o3 25 = oct out 25)
        /\ forall o4, length o4 = Nat.min (length o3) 576 -> oct o4 25 = oct o3 25 -> skipn 28 o4 = firstn (576 - 28) (skipn 28 o3) -> carried64 m up up' inn o4
    | XDrop j => j = J_ICMPEXT_BIG /\ Z.of_nat (length m - (up + 8)) < attr6 m up
    | _ => False
    end).
  { destruct ext eqn:EE; unfold ext in EE.
    - assert (AT : attr6 m up = 8 * oct m (up + 4)) by (unfold attr6; rewrite EE; reflexivity).
      assert (B1 : (length m = up + 8 + (length m - (up + 8)))%nat) by lia. assert (B2 : (length o2 + (up' - q) = 48 + (length m - (up + 8)))%nat) by lia.
      assert (B3 : Z.of_nat (length m) < 65536 + 40) by lia. assert (B4 : Z.of_nat (length o2) < 65536) by lia. assert (B5 : (up' - q <= length m - (up + 8))%nat) by lia.
      pose proof (fun r => handle4_len (x_le e) up m o2 (length m - (up + 8)) (up' - q) r F FO2 B1 B2 B3 B4 B5 ltac:(rewrite <- AT; exact ATTR)) as HL4.
      pose proof (C41_64_partial (x_le e) up m o2 (length m - (up + 8)) (up' - q) _ _ _ _ _ _ _ _ _ _ F FO2 B1 B2 B3 B4 B5
        ltac:(rewrite <- AT; exact ATTR) HO2) as C. rewrite <- AT in C. cbv zeta in C.
      destruct (handle_icmp4_extension (x_le e) up m o2) as [o3|j|j r i|] eqn:HX; try (exfalso; exact C); [|exact C].
      destruct C as (C1 & C2 & C3 & C4).
      pose proof (handle4_u8 _ _ _ _ _ F FO2 HX) as F3.
      pose proof (HL4 o3 eq_refl) as L3.
      split; [exact F3|]. split; [exact L3|]. split.
      { eexists. split; [|exact C1]. intros [D1 D2]. specialize (DF0 D1). clear - D2 DF0. lia. }
      split; [intros i I1 I2; rewrite C2 by assumption; apply OO2; clear - I1; lia|]. split; [discriminate|].
      intros o4 L4 O25 S4. unfold carried64. cbv zeta. rewrite S28 in C3, C4. rewrite A2 in C4.
      replace (Z.of_nat (length m) - Z.of_nat (up + 8) - attr6 m up) with (Z.of_nat (length m - (up + 8)) - attr6 m up) by (clear - B1; lia).
      split.
      + intros C. destruct (C3 C) as [C5 C6]. split; [intros _; rewrite O25; exact C5|]. rewrite S4, C6. reflexivity.
      + intros G1 G2. destruct (C4 G1 G2) as (C5 & C6 & C7). rewrite firstn_all2 in S4 by (rewrite skipn_length; clear - C5; lia). split.
        * intros G3. destruct (C6 G3) as (C8 & d' & C9 & C10). split; [clear - C8 C5 L4 LO2 PI1 LA; lia|]. exists d'. split; [exact C9|]. unfold extended in *. rewrite S4, O25.
          replace (up + 8 + Z.to_nat (attr6 m up))%nat with (Z.to_nat (Z.of_nat up + 8 + attr6 m up)) by (clear - G1; lia). exact C10.
        * intros G3. destruct (C7 G3) as (C8 & C9). split; [rewrite O25; exact C8|]. rewrite S4. exact C9.
    - split; [exact FO2|]. split; [lia|]. split; [exists df0; split; [rewrite LO2; exact DF0|rewrite LO2; exact HO2]|].
      split; [intros i I1 I2; apply OO2; lia|]. split; [intros _; apply OO2; lia|].
      intros o4 L4 O25 S4. unfold carried64, attr6. cbv zeta. rewrite EE. split; [|lia]. intros _. split; [cbn [In]; lia|]. rewrite S4, S28. reflexivity. }
  destruct (if ext then _ else _) as [o3|j|j r i|]; cbn [xbind]; try (exfalso; exact EX).
  2: { tauto. }
  destruct EX as (E1 & E2 & (df3 & E3 & E4) & E5 & E6 & E7).
  fold (finish64 (x_le e) o3).
  destruct (finish64_spec (x_le e) o3 _ _ _ _ _ _ _ _ _ _ E1 E2 E4 eq_refl) as (Q1 & Q2 & Q3 & Q4 & Q5 & Q6). set (o4 := finish64 (x_le e) o3) in *. clearbody o4.
  assert (HH : forall i, (i < 8)%nat -> i <> 2%nat -> i <> 3%nat -> i <> 5%nat -> oct o4 (20 + i) = oct h i) by (intros i I1 I2 I3 I4; rewrite Q5, E5 by (clear - I1 I2 I3 I4; lia); apply OH; exact I1).
  split; [exact X1|]. split; [exact X2|]. split; [exact VOK|]. split; [lia|]. split; [exact Q2|].
  split. { refine (ipv4_df _ _ _ _ _ _ _ _ _ _ _ _ _ Q3). split; [|contradiction]. intros [D1 D2]. specialize (E3 D1). lia. }
  split; [exact Q4|]. rewrite <- (HH 0%nat), <- (HH 1%nat) in H3 by (clear; lia). split; [exact H3|].
  split; [|exists inn; split; [exact PI|]; apply E7; [exact Q1|apply Q5; clear; lia|exact Q6]].
  assert (H25 : ext = false -> oct o4 25 = oct h 5) by (intros EF; rewrite Q5, E6 by (assumption || (clear; lia)); apply (OH 5%nat); clear; lia).
  unfold rest64. rewrite !oct_skipn, !Nat.add_0_r.
  assert (W4 : ext = false -> word (skipn 20 o4) 4 = word h 4).
  { intros EF. apply word_same; rewrite oct_skipn; cbn [Nat.add]; [apply (HH 4%nat); clear; lia|exact (H25 EF)]. }
  assert (W6 : word (skipn 20 o4) 6 = word h 6) by (apply word_same; rewrite oct_skipn; cbn [Nat.add]; [apply (HH 6%nat); clear; lia|apply (HH 7%nat); clear; lia]).
  assert (O4 : oct o4 (20 + 4) = oct h 4) by (apply HH; clear; lia). rewrite O4, W6. unfold ext in *. clear - H2 H5 H6 H7 W4 W6 H25 MT F.
  assert (RZ : rest h = 0 -> oct h 4 = 0 /\ oct h 5 = 0 /\ word h 4 = 0 /\ word h 6 = 0).
  { unfold rest, word. pose proof (oct_u8 h 4 H2) as U4. pose proof (oct_u8 h 5 H2) as U5. pose proof (oct_u8 h 6 H2) as U6. pose proof (oct_u8 h 7 H2) as U7.
    unfold is_u8 in *. change (2^8) with 256 in *. cbn [Nat.add]. lia. }
  split. { intros T. destruct RZ as (R1 & R2 & R3 & R4); [apply H7; left; exact T|]. split; assumption. }
  split. { intros T. assert (EF : (oct m up =? 1) || (oct m up =? 3) = false) by (rewrite T; reflexivity). rewrite (W4 EF). destruct (H5 T) as [-> M]. split; [reflexivity|].
    intros x R I LX B. rewrite M. apply C36_ptb_partial; try assumption.
    - split; [exact R|]. unfold rest. pose proof (word_u16 _ 4 (skipn_u8 up _ F)) as U4. pose proof (word_u16 _ 6 (skipn_u8 up _ F)) as U6.
      unfold is_u16 in *. change (2^16) with 65536 in *. lia.
    - intros o O. specialize (MT o O). lia. }
  split. { intros T T1. assert (EF : (oct m up =? 1) || (oct m up =? 3) = false) by (rewrite T; reflexivity). change (20 + 5)%nat with 25%nat. rewrite (H25 EF). exact (H6 T T1). }
  intros T T1. assert (EF : (oct m up =? 1) || (oct m up =? 3) = false) by (rewrite T; reflexivity).
  unfold rest. rewrite (W4 EF), W6. apply H7. right. tauto.
Qed.
End error64.
