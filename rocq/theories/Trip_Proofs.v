(** Lemmas about packets translated twice. *)
Require Import Verif.Base Verif.Pool4_Model Verif.Rtrie_Model Verif.Nat64_Model Verif.Csum_Model Verif.Csum_Spec Verif.Csum_Proofs
  Verif.Csum_Properties Verif.Pkt_Model Verif.Pkt_Spec Verif.Pkt_Proofs Verif.Pkt_Properties
  Verif.Hdr_Model Verif.Hdr_Spec Verif.Hdr_Proofs Verif.Hdr_Properties Verif.Ext_Model Verif.Xlat_Model Verif.Xlat_Spec Verif.Xlat_Proofs Verif.Xlat_Proofs46
  Verif.Xlat_Properties Verif.Trip_Spec.
Local Ltac Zify.zify_post_hook ::= Z.div_mod_to_equations.

Lemma nth_app_l (a b : list Z) i : (i < length a)%nat -> nth i (a ++ b) 0 = nth i a 0.
Proof. intros H. apply app_nth1. exact H. Qed.
Lemma nth_app_r (a b : list Z) i : (length a <= i)%nat -> nth i (a ++ b) 0 = nth (i - length a) b 0.
Proof. intros H. apply app_nth2. lia. Qed.

Lemma same_but_compose off p1 p2 seg a a' rest : (4 <= length a)%nat -> same_but off p1 seg (a ++ rest) -> same_but off p2 a a' ->
  same_but off (last_ports p1 p2) seg (a' ++ rest).
Proof.
  intros LA (L1 & M1 & P1) (L2 & M2 & P2). rewrite app_length in L1. split; [rewrite app_length; lia|]. split.
  - intros i Hi N1 N2. rewrite <- M1 by assumption. destruct (Nat.lt_ge_cases i (length a)).
    + rewrite !nth_app_l by lia. apply M2; [lia|assumption|assumption].
    + rewrite !nth_app_r by lia. rewrite L2. reflexivity.
  - unfold last_ports. destruct p2 as [[s d]|].
    + rewrite !nth_app_l by lia. exact P2.
    + assert (Q : forall i, (i < 4)%nat -> nth i (a' ++ rest) 0 = nth i (a ++ rest) 0) by (intros i Hi; rewrite !nth_app_l by lia; apply P2; exact Hi).
      destruct p1 as [[s d]|]; [rewrite !Q by lia; exact P1|]. intros i Hi. rewrite Q by exact Hi. apply P1. exact Hi.
Qed.

Lemma word_nth m o : word m o = 256 * nth o m 0 + nth (o + 1) m 0.
Proof. reflexivity. Qed.

Lemma echo46_types t c t' c' : becomes rules46 t c t' c' -> ~ icmp4_error_type t -> (t = 8 /\ t' = 128 \/ t = 0 /\ t' = 129) /\ c' = 0.
Proof.
  intros (lo & hi & n & I & _ & E) N. unfold rules46, icmp4_error_type in *.
  cbn [In] in I. repeat (destruct I as [I|I]; [injection I as <- <- <- <- <-; first [split; [lia|exact E]|elim N; cbn; tauto]|]). elim I.
Qed.
Lemma echo64_types t c t' c' : becomes rules64 t c t' c' -> t = 128 \/ t = 129 -> (t = 128 -> t' = 8) /\ (t = 129 -> t' = 0) /\ c' = 0.
Proof.
  intros (lo & hi & n & I & _ & E) N. unfold rules64 in *.
  cbn [In] in I. repeat (destruct I as [I|I]; [injection I as <- <- <- <- <-; first [split; [lia|split; [lia|exact E]]|lia]|]). elim I.
Qed.

Lemma same_echo_compose p1 p2 seg a a' : same_echo (option_map fst p1) seg a -> same_echo (option_map fst p2) a a' ->
  same_echo (option_map fst (last_ports p1 p2)) seg a'.
Proof.
  intros (L1 & W1 & M1) (L2 & W2 & M2). split; [lia|]. split; [|intros i Hi; rewrite M2, M1 by exact Hi; reflexivity].
  rewrite W2. unfold last_ports. destruct p2 as [[s d]|]; [reflexivity|exact W1].
Qed.

Lemma segments_compose P1 P2 p1 p2 s4 d4 s6 d6 s4' d4' p seg a a' rest : datagram seg -> Forall is_u8 a -> Forall is_u8 rest ->
  ~ P1 -> ~ P2 -> (p = 6 -> (20 <= length a)%nat) -> (p = 17 -> (8 <= length a)%nat) -> (p = 1 -> rest = [] /\ ~ icmp4_error_type (oct seg 0)) -> p <> 58 ->
  length seg = length (a ++ rest) ->
  segment46 P1 p1 s4 d4 s6 d6 p seg (a ++ rest) -> segment64 P2 p2 s6 d6 s4' d4' (proto46 p) a a' ->
  same_segment (last_ports p1 p2) s4 d4 s4' d4' p seg (a' ++ rest).
Proof.
  intros DS FA FR N1 N2 L6 L17 L1 N58 LEN (A6 & A17 & A1 & AO) (B6 & B17 & B1 & BO).
  assert (CK : forall q R, datagram (seg ++ R) -> (ok6 s6 d6 q ((a ++ rest) ++ R) <-> ok4 s4 d4 q (seg ++ R)) ->
    (datagram (a ++ (rest ++ R)) -> (ok4 s4' d4' q (a' ++ (rest ++ R)) <-> ok6 s6 d6 q (a ++ (rest ++ R)))) ->
    (ok4 s4' d4' q ((a' ++ rest) ++ R) <-> ok4 s4 d4 q (seg ++ R))).
  { intros q R D X Y. rewrite <- X, <- !app_assoc. apply Y. destruct D as [D1 D2]. apply Forall_app in D1. split.
    - apply Forall_app. split; [exact FA|]. apply Forall_app. tauto.
    - rewrite app_length in LEN, D2. rewrite !app_length. lia. }
  unfold proto46 in *. split; [|split; [|split]].
  - intros ->. cbn [Z.eqb Pos.eqb] in *. destruct (A6 eq_refl) as (S1 & _ & C1). destruct (B6 eq_refl) as (S2 & _ & C2). specialize (L6 eq_refl).
    split; [refine (same_but_compose _ _ _ _ _ _ _ _ S1 S2); lia|]. intros R D. apply CK; [exact D|apply C1; assumption|intros D'; apply C2; assumption].
  - intros ->. cbn [Z.eqb Pos.eqb] in *. destruct (A17 eq_refl) as (S1 & C1). destruct (B17 eq_refl) as (S2 & (_ & C2) & W2). specialize (L17 eq_refl).
    split; [refine (same_but_compose _ _ _ _ _ _ _ _ S1 S2); lia|]. split.
    + rewrite word_nth in *. rewrite !nth_app_l by (destruct S2; lia). exact W2.
    + intros NZ. destruct (C1 NZ) as [_ C1']. intros R D. apply CK; [exact D|apply C1'; assumption|intros D'; apply C2; assumption].
  - intros ->. cbn [Z.eqb Pos.eqb] in *. destruct (L1 eq_refl) as [-> NE]. rewrite app_nil_r in *.
    destruct (A1 eq_refl) as (T1 & E1 & C1). destruct (B1 eq_refl) as (T2 & E2 & C2).
    destruct (echo46_types _ _ _ _ T1 NE) as [T _]. destruct (echo64_types _ _ _ _ T2 ltac:(lia)) as (T3 & T4 & T5).
    split; [lia|]. split; [exact T5|]. split; [eapply same_echo_compose; [exact E1|exact E2]|]. intros Z1 Z2. rewrite (C2 Z2). apply C1. exact Z1.
  - intros Q6 Q17 Q1. rewrite (proj2 (Z.eqb_neq p 1) Q1) in *. rewrite BO by assumption. rewrite (AO Q6 Q17 Q1). reflexivity.
Qed.

(** ** The second translator's view of the packet between *)
Definition ext_number (p : Z) : Prop := In p [0; 43; 44; 60].

Lemma between_plain mem o lin mt l p tc len hops s d : Forall is_u8 o -> (lin <= length o)%nat -> pkt_init_ipv6 mem o lin = Good (mt, l) ->
  ipv6_header o 0 tc len p hops s d -> ~ ext_number p -> packet6 o [] p (l4off mt) (payoff mt) /\ l4off mt = 40%nat.
Proof.
  intros F L G H N. destruct (C39_parses mem o lin mt l F L G) as (hs & p' & PK & _). pose proof PK as (_ & C & _).
  destruct H as (_ & _ & _ & _ & _ & H & _). cbn [Nat.add] in H. rewrite H in C.
  destruct (chain_det _ _ _ _ _ _ C _ _ _ (c_upper o p 40 N)) as (-> & -> & ->). auto.
Qed.
Lemma between_fragment mem o lin mt l p tc len hops s d off mf id : Forall is_u8 o -> (lin <= length o)%nat -> pkt_init_ipv6 mem o lin = Good (mt, l) ->
  ipv6_header o 0 tc len 44 hops s d -> fragment_header o 40 p off mf id -> (48 <= length o)%nat -> ~ ext_number p ->
  packet6 o [(44, 40%nat)] p (l4off mt) (payoff mt) /\ l4off mt = 48%nat.
Proof.
  intros F L G H FG LN N. destruct (C39_parses mem o lin mt l F L G) as (hs & p' & PK & _). pose proof PK as (_ & C & _).
  destruct H as (_ & _ & _ & _ & _ & H & _). cbn [Nat.add] in H. rewrite H in C. destruct FG as (FG & _).
  destruct (chain_det _ _ _ _ _ _ C _ _ _ (c_frag o 40 p ltac:(lia) (eq_sym FG) N)) as (E1 & E2 & E). subst hs p'. split; [exact PK|rewrite <- E; reflexivity].
Qed.

Section back.
Context (e2 : env64) (p tc hops : Z).
Context (OK2 : env64_ok e2) (NP : x_sum e2 <> CS_PARTIAL) (N58 : p <> 58) (NX : ~ ext_number p).
Let p' := proto46 p.
Let tos := kept (dscp_only (x_tos e2)) (tos_of (reset_tos (x_tos e2)) (new_tos (x_tos e2)) tc).
Definition translated (o o4 : list Z) : Prop :=
  exists mem lin mt l, (lin <= length o)%nat /\ pkt_init_ipv6 mem o lin = Good (mt, l) /\ xlat64 e2 l o mt = XOk o4.

Lemma p'_1 : p' <> 1. Proof. unfold p', proto46. destruct (p =? 1) eqn:E; lia. Qed.
Lemma p'_ext : ~ ext_number p'.
Proof. unfold p', proto46. destruct (p =? 1) eqn:E; [|exact NX]. unfold ext_number. cbn. lia. Qed.
Lemma p'_back : proto64 p' = p.
Proof. unfold p', proto46, proto64. destruct (p =? 1) eqn:E; [cbn; lia|]. destruct (p =? 58) eqn:E2; lia. Qed.
Lemma p'_58 : p' = 58 -> p = 1. Proof. unfold p', proto46. destruct (p =? 1) eqn:E; lia. Qed.
Lemma p'_6 : p' = 6 -> p = 6. Proof. unfold p', proto46. destruct (p =? 1) eqn:E; lia. Qed.

Lemma plain_back o o4 len s d : Forall is_u8 o -> translated o o4 -> ipv6_header o 0 tc len p' hops s d -> (length o <= Z.to_nat 65555)%nat -> (40 <= length o)%nat ->
  (p = 1 -> ~ icmp6_error_type (oct o 40)) -> (p = 6 -> 5 <= oct o (40 + 12) / 16) ->
  exists id df, ipv4_header o4 0 tos (Z.of_nat (length o4)) id df False 0 (hops - 1) p (x_src e2) (x_dst e2)
    /\ segment64 False (x_ports e2) s d (x_src e2) (x_dst e2) p' (skipn 40 o) (skipn 20 o4) /\ Forall is_u8 o4
    /\ (p = 6 -> (20 <= length o - 40)%nat) /\ (p = 17 -> (8 <= length o - 40)%nat).
Proof.
  intros F (mem & lin & mt & l & L & G & X) H LN LO NE DO.
  destruct (between_plain mem o lin mt l p' tc len hops s d F L G H p'_ext) as [PK UP].
  assert (FP : first_piece o []) by exact Logic.I.
  pose proof (C74_partial e2 mem o lin mt l [] p' F L G PK OK2 p'_1) as T. rewrite UP in T.
  specialize (T ltac:(intros E; apply NE; apply p'_58; exact E) ltac:(intros E _; apply DO; apply p'_6; exact E) ltac:(lia)). cbv zeta in T. rewrite X in T.
  destruct T as (_ & _ & T3 & T4 & _ & (big & _ & T6) & T7 & _). exists (x_id e2), big.
  destruct H as (_ & H1 & _ & _ & _ & _ & H2 & H3 & H4). cbn [Nat.add] in *.
  change (id64 o [] (x_id e2)) with (x_id e2) in T6. change (df64 [] big) with big in T6. change (more64 o []) with False in T6. change (off64 o []) with 0 in T6.
  rewrite p'_back, H1, H2 in T6. split; [exact T6|]. specialize (T7 FP). rewrite H3, H4 in T7. split.
  - destruct T7 as (S1 & S2 & S3). split; [|split; [|exact S3]].
    + intros E. destruct (S1 E) as (A & B & C). split; [exact A|]. split; [tauto|]. intros _. apply C. exact NP.
    + intros E. destruct (S2 E) as (A & (B & C) & D). split; [exact A|]. split; [|exact D]. split; [tauto|]. intros _. apply C. exact NP.
  - split; [exact T4|]. destruct PK as (_ & _ & PT & _ & PL & _). destruct (PT FP) as (Q1 & Q2 & _). rewrite UP in *. split.
    + intros ->. destruct (Q1 eq_refl) as [Q3 Q4]. specialize (DO eq_refl). lia.
    + intros ->. rewrite Q2 in PL by (left; reflexivity). lia.
Qed.

Lemma frag_back o o4 len s d off mf id : Forall is_u8 o -> translated o o4 -> ipv6_header o 0 tc len 44 hops s d -> fragment_header o 40 p' off mf id -> 0 <= id < 65536 ->
  (length o <= Z.to_nat 65563)%nat -> (48 <= length o)%nat ->
  (p = 1 -> off = 0 -> ~ mf -> ~ icmp6_error_type (oct o 48)) -> (p = 6 -> off = 0 -> (68 <= length o)%nat -> 5 <= oct o (48 + 12) / 16) ->
  fragment4 tos (hops - 1) (x_src e2) (x_dst e2) p id o4 off mf (skipn 20 o4) /\ Forall is_u8 o4
    /\ (off = 0 -> segment64 False (x_ports e2) s d (x_src e2) (x_dst e2) p' (skipn 48 o) (skipn 20 o4)
        /\ (p = 6 -> (20 <= length o - 48)%nat) /\ (p = 17 -> (8 <= length o - 48)%nat))
    /\ (off <> 0 -> skipn 20 o4 = skipn 48 o) /\ (p = 1 -> off = 0 /\ ~ mf) /\ length (skipn 20 o4) = length (skipn 48 o).
Proof.
  intros F (mem & lin & mt & l & L & G & X) H FH ID LN LO NE DO.
  destruct (between_fragment mem o lin mt l p' tc len hops s d off mf id F L G H FH LO p'_ext) as [PK UP].
  destruct FH as (_ & _ & F1 & F2 & _ & F3).
  assert (FP : first_piece o [(44, 40%nat)] <-> off = 0) by (unfold first_piece; cbn [where_is find fst Z.eqb Pos.eqb option_map snd]; rewrite F1; tauto).
  assert (W1 : p' = 58 -> off = 0 /\ ~ mf).
  { intros E. destruct PK as (_ & _ & _ & _ & _ & W). destruct (W E) as (W1 & _). unfold whole in W1. cbn [where_is find fst Z.eqb Pos.eqb option_map snd] in W1. rewrite F1, F2 in W1. exact W1. }
  assert (DO' : p' = 6 -> first_piece o [(44, 40%nat)] -> 5 <= oct o (48 + 12) / 16).
  { intros E Q. apply DO; [apply p'_6; exact E|apply FP; exact Q|]. pose proof PK as (_ & _ & PT & _). destruct (PT Q) as (Q1 & _). destruct (Q1 E) as [Q2 _]. rewrite UP in Q2. exact Q2. }
  pose proof (C74_partial e2 mem o lin mt l [(44, 40%nat)] p' F L G PK OK2 p'_1) as T. rewrite UP in T.
  specialize (T ltac:(intros E; apply NE; [apply p'_58; exact E|apply W1; exact E|apply W1; exact E]) DO' ltac:(lia)). cbv zeta in T. rewrite X in T.
  destruct T as (_ & _ & T3 & T4 & _ & (big & _ & T6) & T7 & T8).
  destruct H as (_ & H1 & _ & _ & _ & _ & H2 & H3 & H4). cbn [Nat.add] in *.
  change (id64 o [(44, 40%nat)] (x_id e2)) with (word o 46) in T6. change (df64 [(44, 40%nat)] big) with False in T6.
  change (off64 o [(44, 40%nat)]) with (fr_offset o 40) in T6.
  assert (IDE : word o 46 = id) by (pose proof (word_u16 o 44 F) as U; pose proof (word_u16 o 46 F) as U2; unfold is_u16 in U, U2; change (2^16) with 65536 in U, U2; lia).
  rewrite p'_back, H1, H2, IDE, F1 in T6. split.
  { split; [|reflexivity]. change (more64 o [(44, 40%nat)]) with (fr_more o 40) in T6. unfold ipv4_header in *. rewrite F2 in T6. exact T6. }
  split; [exact T4|]. split; [|split; [intros Q; apply T8; rewrite FP; exact Q|]].
  - intros Q. apply FP in Q. specialize (T7 Q). rewrite H3, H4 in T7. split.
    + destruct T7 as (S1 & S2 & S3). split; [|split; [|exact S3]].
      * intros E. destruct (S1 E) as (A & B & C). split; [exact A|]. split; [tauto|]. intros _. apply C. exact NP.
      * intros E. destruct (S2 E) as (A & (B & C) & D). split; [exact A|]. split; [|exact D]. split; [tauto|]. intros _. apply C. exact NP.
    + destruct PK as (_ & _ & PT & _ & PL & _). destruct (PT Q) as (Q1 & Q2 & _). rewrite UP in *. split.
      * intros ->. destruct (Q1 eq_refl) as [Q3 Q4]. lia.
      * intros ->. rewrite Q2 in PL by (left; reflexivity). lia.
  - split; [|rewrite (skipn_length 20), T3; lia]. intros E. apply W1. unfold p', proto46. rewrite E. reflexivity.
Qed.

Lemma series_data s d id more off data outs : series tc hops s d p' id more off data outs -> Forall (fun o => (48 < length o /\ length o - 48 <= length data)%nat) outs.
Proof.
  induction 1 as [off o d0 (H & _ & H3 & H4)|off o d0 d' os (H & _ & H3 & H4) X IH].
  - assert (Q : length d0 <> 0%nat) by (intros E; apply H4; apply length_zero_iff_nil; exact E). rewrite <- H3, skipn_length in *. constructor; [lia|constructor].
  - assert (Q : length d0 <> 0%nat) by (intros E; apply H4; apply length_zero_iff_nil; exact E). rewrite app_length. constructor.
    + rewrite <- H3, skipn_length in *. lia.
    + eapply Forall_impl; [|exact IH]. cbn. intros; lia.
Qed.

Lemma series_u8 s d id more off data outs : series tc hops s d p' id more off data outs -> Forall (Forall is_u8) outs -> Forall is_u8 data /\ outs <> [].
Proof.
  induction 1 as [off o d0 (H & _ & H3 & H4)|off o d0 d' os (H & _ & H3 & H4) X IH]; intros FO; inversion FO; subst; (split; [|discriminate]).
  - apply skipn_u8. assumption.
  - apply Forall_app. split; [apply skipn_u8; assumption|apply IH; assumption].
Qed.

(* Fragments which are not the first *)
Lemma series_back s d id more : 0 <= id < 65536 -> forall off data outs, series tc hops s d p' id more off data outs -> forall outs4, 0 < off -> Z.of_nat (length data) <= 65515 ->
  Forall (Forall is_u8) outs -> Forall2 translated outs outs4 ->
  series4 tos (hops - 1) (x_src e2) (x_dst e2) p id more off data outs4.
Proof.
  intros ID off data outs SE. induction SE as [off o d0 (H & H2 & H3 & H4)|off o d0 d' os (H & H2 & H3 & H4) X IH]; intros outs4 P LD FO TR.
  - inversion TR as [|? o4 ? r T1 T2]; subst. inversion T2; subst. inversion FO; subst.
    assert (Q : length (skipn 48 o) <> 0%nat) by (intros E; apply H4; apply length_zero_iff_nil; exact E). rewrite skipn_length in Q.
    rewrite skipn_length in LD.
    destruct (frag_back o o4 _ s d off more id ltac:(assumption) T1 H H2 ID ltac:(lia) ltac:(lia) ltac:(intros; lia) ltac:(intros; lia)) as (A & _ & _ & B & _).
    rewrite <- B by lia. apply s4_last. exact A.
  - inversion TR as [|? o4 ? r T1 T2]; subst. inversion FO; subst. rewrite app_length in LD.
    assert (Q : length (skipn 48 o) <> 0%nat) by (intros E; apply H4; apply length_zero_iff_nil; exact E). rewrite skipn_length in Q, LD.
    destruct (frag_back o o4 _ s d off True id ltac:(assumption) T1 H H2 ID ltac:(lia) ltac:(lia) ltac:(intros; lia) ltac:(intros; lia)) as (A & _ & _ & B & _).
    rewrite <- B in * by lia. apply s4_more; [exact A|]. apply IH; [lia|lia|assumption|assumption].
Qed.
End back.
