(** C86, hairpins: a packet between two nodes behind the same translator. *)
Require Import Verif.Base Verif.Addr_Model Verif.Addr_Spec Verif.Addr_Properties Verif.Rtrie_Model Verif.Pool4_Model Verif.Fsm_Model Verif.Bib_Model
  Verif.Bib_Inv Verif.Bib_Add Verif.Bib_Find Verif.Bib_Hist Verif.Bib_Spec Verif.Bib_Properties Verif.Nat64_Model Verif.Nat64_Spec Verif.Nat64_Properties Verif.Nat64_Errors Verif.Nat64_Hairpin.
Require Import Verif.Csum_Model Verif.Csum_Spec Verif.Csum_Proofs Verif.Csum_Properties Verif.Pkt_Model Verif.Pkt_Spec Verif.Pkt_Proofs Verif.Pkt_Properties
  Verif.Hdr_Model Verif.Hdr_Spec Verif.Hdr_Proofs Verif.Hdr_Properties Verif.Ext_Model Verif.Xlat_Model Verif.Xlat_Spec Verif.Xlat_Proofs Verif.Xlat_Proofs46
  Verif.Xlat_Properties Verif.Trip_Spec Verif.Trip_Proofs Verif.E2e_Model Verif.E2e_Spec Verif.E2e_Proofs Verif.E2e_Out Verif.E2e_Back.
Local Ltac Zify.zify_post_hook ::= idtac.

(** C75, of what was parsed before or made up as [meta_out] *)
Lemma C75_view : forall e m lin l mt p, Forall is_u8 m -> view4 m lin l mt p -> env46_ok e (l4off mt) ->
  let up := l4off mt in let seg := skipn up m in
  p <> 58 -> (p = 1 -> ~ icmp4_error_type (oct m up)) -> (p = 6 -> fr4_offset m 0 = 0 -> 5 <= oct m (up + 12) / 16) ->
  (20 <= up)%nat -> options m up 20 -> fr4_offset m 0 = 0 -> Z.of_nat (length seg) <= 65515 -> (exists s d, y_ports e = Some (s, d)) -> (p = 1 -> oct m up = 8 \/ oct m up = 0) ->
  match xlat46 e l m mt with
  | XOk outs => (y_hairpin e = false -> 1 < oct m 8)
      /\ Forall (Forall is_u8) outs
      /\ Forall (fun o => Z.of_nat (length o) <= y_mtu e /\ (~ df_set m 0 -> Z.of_nat (length o) <= y_lim e)) outs
      /\ (df_set m 0 -> length outs = 1%nat)
      /\ exists seg', sent6 (tos_of (y_reset e) 0 (oct m 1)) (oct m 8 - if y_hairpin e then 0 else 1) (y_src e) (y_dst e) (proto46 p) (word m 4)
              (fr4_more m 0) 0 seg' outs
         /\ segment46 (y_sum e = CS_PARTIAL) (y_ports e) (field m 12 4) (field m 16 4) (y_src e) (y_dst e) p seg seg'
  | XUB => False
  | _ => True
  end.
Proof.
  intros e m lin l mt p F V (GP & US & UD & GS & FL & HR & FH & FR & FRU & FU) up seg P58 NE DO UP OPT OFF LEN PT EC.
  assert (SG : datagram seg) by (split; [apply skipn_u8; exact F|lia]).
  pose proof (a_all e m lin l mt p F V P58 NE DO SG GP US UD GS FL HR FH FR FRU OPT UP FU ltac:(rewrite OFF; exact LEN)) as X.
  fold up seg in X. destruct (xlat46 e l m mt) as [outs|j|j r i|]; [|exact Logic.I|exact Logic.I|exact X].
  destruct X as (X1 & X2 & X3 & X4 & X5 & seg' & X6 & X7 & _). repeat (split; [assumption|]). exists seg'. split; [|apply X7; exact OFF].
  unfold sent46, hops46, tc46 in X6. rewrite OFF in X6. unfold tos_of. destruct (y_hairpin e); [rewrite Z.sub_0_r|]; exact X6.
Qed.

(** What is between the two translations is a packet. *)
Lemma view_out : forall mem m lin mt l hs p pr sp dp P ports s6 d6 s4 d4 o tos df id ttl, Forall is_u8 m -> (lin <= length m)%nat -> pkt_init_ipv6 mem m lin = Good (mt, l) ->
  packet6 m hs p (l4off mt) (payoff mt) -> first_piece m hs -> ends 58 [128; 129] m p (l4off mt) pr sp dp ->
  length o = (20 + (length m - l4off mt))%nat -> Forall is_u8 o ->
  ipv4_header o 0 tos (Z.of_nat (length o)) id df (more64 m hs) 0 ttl (proto64 p) s4 d4 ->
  segment64 P ports s6 d6 s4 d4 p (skipn (l4off mt) m) (skipn 20 o) ->
  let l' := (length o - (length m - l))%nat in view4 o l' l' (meta_out mt) (proto64 p).
Proof.
  intros mem m lin mt l hs p pr sp dp P ports s6 d6 s4 d4 o tos df id ttl F L G PK FP TE LO FO H SG l'.
  pose proof (parse_view mem m lin mt l hs p F L G PK) as V. pose proof (o_pay m lin l mt hs p F V) as [[U1 U2] U3].
  destruct V as [_ Vf Vt Vu Vi Vl Vp Vll _ _]. destruct PK as (_ & _ & T & _ & _ & W). specialize (T FP).
  assert (EL : l' = (20 + (l - l4off mt))%nat) by (unfold l'; lia).
  destruct H as (H0 & _ & _ & _ & _ & _ & HM & HO & _ & H9 & _).
  assert (PP : (p = 6 /\ proto64 p = 6) \/ (p = 17 /\ proto64 p = 17) \/ (p = 58 /\ proto64 p = 1)) by (destruct TE as [(-> & _)|[(-> & _)|(-> & _)]]; auto).
  destruct SG as (G6 & G17 & G58 & _).
  constructor; unfold meta_out; cbn [l4off payoff l4p fhdr].
  - split; [lia|]. split; [symmetry; exact H9|]. split; [unfold ihl; rewrite H0; reflexivity|]. split; [|split; [intros N; elim N; exact HO|split; [lia|]]].
    + intros _. destruct T as (T1 & T2 & T3). split; [|split].
      * intros E. assert (E6 : p = 6) by (clear -PP E; destruct PP as [[A B]|[[A B]|[A B]]]; rewrite ?A; try reflexivity; rewrite B in E; try discriminate E; destruct E; auto; discriminate). destruct (T1 E6) as [A B]. split; [lia|]. destruct (G6 E6) as ((_ & Q & _) & _).
        rewrite skipn_length in Q. specialize (Q 12%nat ltac:(lia) ltac:(lia) ltac:(lia)). change (oct (skipn 20 o) 12 = oct (skipn (l4off mt) m) 12) in Q. rewrite !oct_skipn in Q. rewrite Q. lia.
      * intros E. rewrite T2 by (clear -PP E; destruct PP as [[A B]|[[A B]|[A B]]]; rewrite ?A; try reflexivity; rewrite B in E; try discriminate E; destruct E; auto; discriminate). lia.
      * intros A B C. exfalso. destruct PP as [[? ?]|[[? ?]|[? ?]]]; congruence.
    + intros E. assert (E58 : p = 58) by (clear -PP E; destruct PP as [[A B]|[[A B]|[A B]]]; rewrite ?A; try reflexivity; rewrite B in E; try discriminate E; destruct E; auto; discriminate). destruct (W E58) as (W1 & W2 & _). split; [exact HO|]. split; [|split; [lia|]].
      * intros M. apply HM in M. unfold more64 in M. unfold whole in W1. destruct (where_is 44 hs); [tauto|exact M].
      * intros C. exfalso. destruct (G58 E58) as (B & _). rewrite !oct_skipn, !Nat.add_0_r in B. destruct TE as [(Y & _)|[(Y & _)|(_ & TY & _)]]; [congruence|congruence|].
        assert (X : oct m (l4off mt) = 128 \/ oct m (l4off mt) = 129) by (destruct TY as [<-|[<-|[]]]; auto). destruct (echo64_types _ _ _ _ B X) as (A1 & A2 & _).
        unfold icmp4_error_type in C. destruct X as [X|X]; [rewrite (A1 X) in C|rewrite (A2 X) in C]; cbn in C; lia.
  - reflexivity.
  - rewrite Vt. destruct PP as [[A B]|[[A B]|[A B]]]; rewrite B, A; split; intros X; try discriminate X; reflexivity.
  - rewrite Vu. destruct PP as [[A B]|[[A B]|[A B]]]; rewrite B, A; split; intros X; try discriminate X; reflexivity.
  - rewrite Vi. destruct PP as [[A B]|[[A B]|[A B]]]; rewrite B, A; split; intros X; try discriminate X; reflexivity.
  - lia.
  - lia.
  - lia.
  - intros E C. exfalso. assert (E58 : p = 58) by (clear -PP E; destruct PP as [[A B]|[[A B]|[A B]]]; rewrite ?A; try reflexivity; rewrite B in E; try discriminate E; destruct E; auto; discriminate). destruct (G58 E58) as (B & _). rewrite !oct_skipn, !Nat.add_0_r in B. destruct TE as [(Y & _)|[(Y & _)|(_ & TY & _)]]; [congruence|congruence|].
    assert (X : oct m (l4off mt) = 128 \/ oct m (l4off mt) = 129) by (destruct TY as [<-|[<-|[]]]; auto). destruct (echo64_types _ _ _ _ B X) as (A1 & A2 & _).
    unfold icmp4_error_type in C. destruct X as [X|X]; [rewrite (A1 X) in C|rewrite (A2 X) in C]; cbn in C; lia.
Qed.

Lemma segments66 : forall P1 P2 p1 s d s6 d6 s4 d4 s6' d6' p seg mid seg', datagram seg -> Forall is_u8 mid -> (P1 <-> P2) -> (p = 58 -> oct seg 0 = 128 \/ oct seg 0 = 129) ->
  p = 6 /\ (4 <= length seg)%nat \/ p = 17 /\ (4 <= length seg)%nat \/ p = 58 ->
  segment64 P1 p1 s6 d6 s4 d4 p seg mid -> segment46 P2 (Some (s, d)) s4 d4 s6' d6' (proto64 p) mid seg' -> segment66 P1 s d s6 d6 s6' d6' p seg seg'.
Proof.
  intros P1 P2 p1 s d s6 d6 s4 d4 s6' d6' p seg mid seg' [DF DL] FM PE TY PP (A6 & A17 & A58 & _) (B6 & B17 & B58 & _).
  assert (SB : forall off, same_but off p1 seg mid -> same_but off (Some (s, d)) mid seg' -> same_but off (Some (s, d)) seg seg').
  { intros off (L1 & Q1 & _) (L2 & Q2 & R2). split; [congruence|]. split; [|exact R2]. intros i Hi N1 N2. rewrite Q2 by (rewrite ?L1; lia). apply Q1; assumption. }
  assert (CK : forall q, length mid = length seg -> ((P1 -> ok4 s4 d4 q mid) /\ (~ P1 -> forall rest, datagram (seg ++ rest) -> (ok4 s4 d4 q (mid ++ rest) <-> ok6 s6 d6 q (seg ++ rest)))) ->
     ((P2 -> ok6 s6' d6' q seg') /\ (~ P2 -> forall rest, datagram (mid ++ rest) -> (ok6 s6' d6' q (seg' ++ rest) <-> ok4 s4 d4 q (mid ++ rest)))) ->
     (P1 -> ok6 s6' d6' q seg') /\ (~ P1 -> forall rest, datagram (seg ++ rest) -> (ok6 s6' d6' q (seg' ++ rest) <-> ok6 s6 d6 q (seg ++ rest)))).
  { intros q LE [_ C2] [C3 C4]. split; [tauto|]. intros N rest D. rewrite C4; [apply C2; assumption|tauto|]. destruct D as [D1 D2]. rewrite app_length in D2. split; [apply Forall_app in D1; apply Forall_app; tauto|rewrite app_length, LE; exact D2]. }
  split; [|split].
  - intros ->. destruct (A6 eq_refl) as [S1 C1]. destruct (B6 eq_refl) as [S2 C2]. split; [exact (SB _ S1 S2)|]. apply (CK 6); [apply S1|exact C1|exact C2].
  - intros ->. destruct (A17 eq_refl) as (S1 & C1 & N). destruct (B17 eq_refl) as [S2 C2]. split; [exact (SB _ S1 S2)|]. apply (CK 17); [apply S1|exact C1|exact (C2 N)].
  - intros ->. destruct (A58 eq_refl) as (T1 & (L1 & W1 & Q1) & C1). destruct (B58 eq_refl) as (T2 & (L2 & W2 & Q2) & C2). destruct (echo64_types _ _ _ _ T1 (TY eq_refl)) as (X1 & X2 & X3).
    assert (NE : ~ icmp4_error_type (oct mid 0)) by (unfold icmp4_error_type; destruct (TY eq_refl) as [Y|Y]; [rewrite (X1 Y)|rewrite (X2 Y)]; cbn; lia).
    destruct (echo46_types _ _ _ _ T2 NE) as [Y1 Y2].
    split; [destruct (TY eq_refl) as [Y|Y]; [pose proof (X1 Y)|pose proof (X2 Y)]; lia|]. split; [exact Y2|]. split; [congruence|]. split; [exact W2|]. split; [intros i Hi; rewrite Q2, Q1 by exact Hi; reflexivity|].
    intros H. assert (NZ : exists i, oct mid i <> 0).
    { destruct H as [H|(i & Hi & H)]; [exists O; rewrite (X1 H); lia|exists i; rewrite Q1 by exact Hi; exact H]. }
    rewrite (C2 NZ). apply C1. exact NZ.
Qed.

Lemma core6_hairpin : forall g better n n2 nm w w2 s mem m lin outs s1 evs, core6 g better n n2 nm w w2 s mem m lin = Ok (Packets6 outs, s1, evs) ->
  exists mt l k v f ot o s' evs1 f2 o2 evs2, pkt_init_ipv6 mem m lin = Good (mt, l) /\ fields_at V6 l m mt = Ok k /\ determine_in_tuple k = (Continue, Some v)
    /\ steps23 g n s v = Ok (Sent f ot, s', evs1) /\ xlat64 (env64_of w ot) l m mt = XOk o /\ is_hairpin g n v ot = Ok true
    /\ steps23 g n2 s' (hairpin_view v ot) = Ok (Sent f2 o2, s1, evs2)
    /\ step4_46 g better w2 true (sum_out m mt (x_sum w)) o2 (length o - (length m - l)) o (meta_out mt) = Some (XOk outs).
Proof.
  intros g better n n2 nm w w2 s mem m lin outs s1 evs H. unfold core6 in H. destruct (pkt_init_ipv6 mem m lin) as [[mt l]|b|]; [|discriminate|discriminate].
  unbind H k Ek. destruct (determine_in_tuple k) as [x [v|]] eqn:Ev; [|destruct x; discriminate]. destruct x; try discriminate.
  unbind H r Er. destruct r as [[r s2] evs2]. destruct r as [f ot|y]; [|discriminate]. destruct (xlat64 (env64_of w ot) l m mt) as [out|j|j y i|] eqn:Ex; try discriminate.
  unbind H h Eh. destruct h; [|discriminate]. destruct nm; [|discriminate]. unbind H r Er2. destruct r as [[r s3] evs3]. destruct r as [f2 o2|y]; [|discriminate].
  destruct (step4_46 _ _ _ _ _ _ _ _ _) as [[a|j|j rr i|]|] eqn:E4; try discriminate. injection H as <- <- _.
  exists mt, l, k, v, f, ot, out, s2, evs2, f2, o2, evs3. auto 10.
Qed.

(** The two passes through the tables *)
Lemma passes : forall g n n2 s k v pr A6 D6 f1 o1 s2 evs1 f2 o s1 evs2, pr <> TCP -> reachable_db s -> typed_db s -> usable4 g n -> typed6 A6 -> k_fam k = V6 -> flow k = Some (pr, A6, D6) ->
  determine_in_tuple k = (Continue, Some v) -> steps23 g n s v = Ok (Sent f1 o1, s2, evs1) -> steps23 g n2 s2 (hairpin_view v o1) = Ok (Sent f2 o, s1, evs2) ->
  let SA := o_src o1 in let SB := o_dst o1 in
  typed4 SA /\ typed6 (o_dst o) /\ (exists a6, rfc6052_4to6 (g_pool6 g) (fst SA) = Some a6 /\ o_src o = (a6, match pr with ICMP => snd (o_dst o) | _ => snd SA end)) /\
  rfc6052_6to4 (g_pool6 g) (fst D6) = Some (fst SB) /\ snd SB = match pr with ICMP => snd SA | _ => snd D6 end /\
  (exists x, has_session (get_table s1 pr) A6 SA x SB) /\ (exists y, has_session (get_table s1 pr) (o_dst o) SB y SA).
Proof.
  intros g n n2 s k v0 pr A6 D6 f1 o1 s2 evs1 f2 o s1 evs2 Np R Ty Us TA Hf Fl Ev E E0 SA SB.
  assert (No : pr <> OTHER) by (intros ->; unfold flow in Fl; destruct (k_l4 k); try discriminate; apply icmp4_cases in Fl; destruct Fl; discriminate).
  rewrite (flow_view _ _ _ _ Fl), Hf in Ev. injection Ev as Ev. match type of Ev with View V6 ?a ?b pr false ?gg A6 D6 pr = _ => set (v := View V6 a b pr false gg A6 D6 pr) in Ev end. subst v0.
  assert (F1 : exists a4 t1 e, rfc6052_6to4 (g_pool6 g) (fst D6) = Some a4 /\ o1 = Out (e_src4 e) (far_end pr (a4, snd D6) (e_src4 e)) /\ f1 = V4 /\ s2 = set_table s pr t1 /\ reachable pr t1 /\
    has_session t1 A6 (e_src4 e) (e_dst6 e) (far_end pr (a4, snd D6) (e_src4 e)) /\ typed4 (e_src4 e) /\ (forall s6' m st', s6' <> A6 -> (has t1 s6' m st' <-> has (get_table s pr) s6' m st'))).
  { unfold steps23 in E. unbind E r E1. destruct r as [[[x en] s3] evs3]. destruct x; try discriminate. unbind E y E2. destruct y as [[] [u|]]; try discriminate. injection E as <- -> -> ->.
    unfold filtering_and_updating in E1. unbind E1 a Ea. destruct a as [a|].
    { exfalso. unfold fu_admit in Ea. cbn [v v_fam v_saddr v_daddr v_err] in Ea. destruct (prefix6_contains _ _); [|destruct (negb _)]; congruence. }
    assert (E1' : ipv6_simple g n s v = Ok (Continue, en, s2, evs1)).
    { unfold fu_update in E1. cbn [v v_l4 v_fam] in E1. fold v in E1. destruct pr; try congruence; [exact E1|]. destruct (g_drop_info g); [discriminate|exact E1]. }
    unfold ipv6_simple, xlat_dst_6to4 in E1'. cbn [v v_dst v_pr v_src] in E1'. unfold compute_out_tuple in E2. unbind E2 b Eb. destruct b as [[b6 b4]|]; [|discriminate]. cbn [v v_fam v_dst v_pr] in E2.
    destruct (rfc6052_6to4 (g_pool6 g) (fst D6)) as [a4|]; [|discriminate]. injection E2 as <-. unbind E1' f Ef. destruct f as [d|]; [|discriminate]. destruct (Us _ _ Ef) as (out & O & Tm). pose proof (reachable_table _ _ R No) as Rt.
    destruct (C18_udp_icmp (g_cfg g) pr _ d out A6 D6 (a4, snd D6) (n_now n) (n_al n) Rt Np O) as (e1 & en1 & t1 & evs2' & Eq & Hm).
    assert (R' : reachable pr t1).
    { apply (reachable_app pr (get_table s pr) [(g_cfg g, OAdd6 d A6 D6 (a4, snd D6) (n_now n) (n_al n))] t1 (evs2' ++ []) Rt); [constructor; [exists out; exact O|constructor]|].
      cbn [run step]. destruct pr; [congruence| | |congruence]; rewrite Eq; reflexivity. }
    rewrite Eq in E1'. cbn [bind] in E1'. destruct e1 as [|z]; [|discriminate]. injection E1' as -> <- ->. destruct (served_source _ _ _ _ _ _ _ _ _ Hm) as (e' & Ee & Hs).
    destruct Hm as (kk & st & e & -> & Y1 & Y2 & Y3 & _ & _ & _ & Y & Yo). injection Ee as <-. cbn [find_bib] in Eb. injection Eb as _ <-.
    exists a4, t1, e. split; [reflexivity|]. split; [f_equal; destruct pr; try congruence; reflexivity|]. split; [reflexivity|]. split; [reflexivity|]. split; [exact R'|]. split; [rewrite Y2; rewrite Y3 in Y; exact Y|].
    split; [|exact Yo]. destruct Hs as [(st' & Hs)|Hs]; [apply (Ty _ _ _ _ Hs)|apply Tm; exact Hs]. }
  destruct F1 as (a4 & t1 & e & Ex & -> & -> & -> & R1 & HA & TS & Oth). clear E. cbn [o_src o_dst] in SA, SB, E0.
  unfold hairpin_view in E0. cbn [v v_fam flip v_l4 v_err v_seg v_pr o_src o_dst] in E0. change (far_end pr (a4, snd D6) (e_src4 e)) with SB in E0, HA. change (e_src4 e) with SA in E0, HA, TS. rename E0 into E.
  match type of E with context [View V4 ?a ?b pr false ?gg SA SB pr] => set (v2 := View V4 a b pr false gg SA SB pr) in E end.
  unfold steps23 in E. unbind E r E1. destruct r as [[[x en] s4] evs4]. destruct x; try discriminate. unbind E y E2. destruct y as [[] [u|]]; try discriminate. injection E as _ -> -> _.
  unfold filtering_and_updating in E1. unbind E1 a Ea. destruct a as [a|].
  { exfalso. unfold fu_admit in Ea. cbn [v2 v_fam v_pr v_dst v_err] in Ea. unbind Ea bb Eb. destruct (negb bb); congruence. }
  assert (E1' : ipv4_simple g n2 (set_table s pr t1) v2 = Ok (Continue, en, s1, evs4)) by (unfold fu_update in E1; cbn [v2 v_l4 v_fam] in E1; fold v2 in E1; destruct pr; try congruence; exact E1).
  unfold ipv4_simple, xlat_src_4to6 in E1'. cbn [v2 v_src v_dst v_pr] in E1'. unfold compute_out_tuple in E2. unbind E2 b Eb. destruct b as [[b6 b4]|]; [|discriminate]. cbn [v2 v_fam v_src v_pr] in E2.
  destruct (rfc6052_4to6 (g_pool6 g) (fst SA)) as [a6|] eqn:Ea6; [|discriminate]. injection E2 as <-. cbn [o_src o_dst].
  assert (T : forall s0 u0, get_table (set_table s0 pr u0) pr = u0) by (intros; destruct pr; try reflexivity; congruence). rewrite T in E1'. unbind E1' r Er. destruct r as [[e1 en1] t2]. destruct e1 as [|z]; [|destruct z; discriminate].
  injection E1' as -> <- _. destruct (add4_keeps _ _ _ _ _ _ _ _ _ _ R1 Er) as ((e2 & -> & G1 & G2) & Kp). cbn [find_bib] in Eb. injection Eb as <- _.
  split; [exact TS|]. split.
  { destruct (reach_inv pr t1 R1) as [I _]. destruct (bib_add4_ok (g_cfg g) pr t1 SB SA (a6, snd SA) (n_now n2) (n_al n2) I) as (e3 & en3 & t3 & E3 & _ & _ & _ & H).
    rewrite Er in E3. injection E3 as <- <- <-. destruct H as [(X & _)|[(X & _)|(bid & b & Hb & Hi & E4 & H)]]; [discriminate|discriminate|].
    assert (B6 : e_src6 e2 = b_src6 b).
    { destruct H as [(sid & se & _ & _ & _ & _ & _ & _ & [= ->])|(_ & [(_ & X & _)|(_ & _ & Lk)])]; [reflexivity|discriminate|]. destruct Lk as (sid & se & b' & A & -> & Es & [= ->] & _).
      pose proof (a_b _ _ _ _ _ A) as Ab. rewrite Es, Hb in Ab. destruct Ab as (_ & B6 & B4 & _). cbn. exact B6. }
    rewrite B6. destruct (Z.eq_dec (fst (b_src6 b)) (fst A6)) as [X1|X1]; [destruct (Z.eq_dec (snd (b_src6 b)) (snd A6)) as [X2|X2]|].
    - replace (b_src6 b) with A6 by (destruct (b_src6 b), A6; cbn in *; congruence). exact TA.
    - apply (Ty pr (b_src6 b) (b_src4 b) (b_static b)). apply Oth; [congruence|]. exists bid, b. auto.
    - apply (Ty pr (b_src6 b) (b_src4 b) (b_static b)). apply Oth; [congruence|]. exists bid, b. auto. }
  split; [exists a6; split; [reflexivity|reflexivity]|]. split; [rewrite Ex; unfold SB; destruct pr; reflexivity|]. split; [unfold SB; destruct pr; try reflexivity; congruence|].
  rewrite T. split; [exists (e_dst6 e); apply Kp; exact HA|exists (e_dst6 e2); exact G2].
Qed.

Lemma sent6_more : forall tc hops src dst nh id (mo mo' : Prop) off seg outs (N : mo <-> mo'),
  sent6 tc hops src dst nh id mo off seg outs -> sent6 tc hops src dst nh id mo' off seg outs.
Proof.
  intros tc hops src dst nh id mo mo' off seg outs N [(x & A1 & A2 & A3 & A4)|[(x & A1 & A2 & A3 & A4 & A5 & A6)|S]].
  - left. exists x. rewrite N in A3. auto.
  - right. left. exists x. unfold fragment_header in *. rewrite N in A2, A6. tauto.
  - right. right. induction S as [off o d (B1 & B2 & B3)|off o d d' os B S IH].
    + apply s_last. split; [exact B1|]. split; [|exact B3]. unfold fragment_header in *. rewrite <- N. exact B2.
    + apply s_more; assumption.
Qed.

(** True except of TCP, and of packets C74 leaves out. [SA], [SB]: the addresses of
    the two nodes in pool4. *)
Theorem C86_hairpin_partial : forall g better n n2 nm w w2 s mem m lin hs p up pay pr A6 D6 outs s1 evs,
  reachable_db s -> typed_db s -> usable4 g n -> pool6_ok g -> world64 w -> world46 w2 20 -> Forall is_u8 m -> (lin <= length m)%nat ->
  packet6 m hs p up pay -> first_piece m hs -> talk6 m p up pr A6 D6 -> pr <> TCP -> (20 + (length m - up) <= Z.to_nat 65535)%nat ->
  core6 g better n n2 nm w w2 s mem m lin = Ok (Packets6 outs, s1, evs) ->
  exists SA SB B6 a6,
    (exists x, has_session (get_table s1 pr) A6 SA x SB) /\ (exists y, has_session (get_table s1 pr) B6 SB y SA)
    /\ rfc6052_6to4 (g_pool6 g) (fst D6) = Some (fst SB) /\ snd SB = match pr with ICMP => snd SA | _ => snd D6 end
    /\ rfc6052_4to6 (g_pool6 g) (fst SA) = Some a6
    /\ 1 < oct m 7 /\ Forall (Forall is_u8) outs /\ Forall (fun o => Z.of_nat (length o) <= y_mtu w2) outs
    /\ let P := match pr with ICMP => snd B6 | _ => snd SA end in
       exists seg' tc, sent6 tc (oct m 7 - 1) a6 (fst B6) p (id64 m hs (x_id w)) (more64 m hs) 0 seg' outs
         /\ ends 58 [128; 129] seg' p 0 pr P (snd B6)
         /\ segment66 (x_sum w = CS_PARTIAL) P (snd B6) (fst A6) (fst D6) a6 (fst B6) p (skipn up m) seg'.
Proof.
  intros g better n n2 nm w w2 s mem m lin hs p up pay pr A6 D6 outs s1 evs R Ty Us P6 W W2 F L PK FP TK Np LEN H.
  destruct (core6_hairpin _ _ _ _ _ _ _ _ _ _ _ _ _ _ H) as (mt & l & k & v & f & ot & o & s' & evs1 & f2 & o2 & evs2 & G & Ek & Ev & Es & Ex & Eh & Es2 & E4). clear H.
  assert (U : packet6 m hs p (l4off mt) (payoff mt) /\ l4off mt = up).
  { destruct (C39_parses mem m lin mt l F L G) as (hs' & p' & PK' & _). pose proof PK as (_ & C & _). pose proof PK' as (_ & C' & _). destruct (chain_det _ _ _ _ _ _ C _ _ _ C') as (-> & -> & E). auto. }
  destruct U as [PK' <-]. clear PK pay. pose proof TK as (TS & TD & TE). destruct (ends_pr 58 _ _ _ _ _ _ _ ltac:(discriminate) TE) as (No & Np6 & Nid). destruct (ends_u16 _ _ _ _ _ _ _ _ F TE) as [U1 U2].
  assert (N6 : p <> 6) by tauto.
  destruct (fields6 mem m lin mt l hs p pr A6 D6 F L G PK' FP ltac:(tauto) TK) as (k' & Ek' & Hf & Fl & _). assert (k' = k) by congruence. subst k'. clear Ek'.
  assert (L40 : (40 <= length m)%nat) by (destruct PK' as (X & _); pose proof (word_u16 m 4 F) as Y; unfold is_u16 in Y; lia).
  assert (TA : typed6 A6).
  { split; [|exact U1]. rewrite TS. unfold field, is_u128. change (2^128) with (256 ^ 16). pose proof (be_of_bound (firstn 16 (skipn 8 m))) as X. rewrite firstn_length, skipn_length, Nat.min_l in X by lia. apply X. apply firstn_u8. apply skipn_u8. exact F. }
  destruct (passes g n n2 s k v pr A6 D6 f ot s' evs1 f2 o2 s1 evs2 Np R Ty Us TA Hf Fl Ev Es Es2) as (T4 & T6 & (a6 & Ea6 & Eo) & E1 & E2 & Hs1 & Hs2).
  assert (UA : is_u32 (fst (o_dst ot))) by (destruct P6 as (_ & fo & P); exact (proj1 (C02_6to4_extracts _ _ _ _ P E1))).
  assert (UD : is_u16 (snd (o_dst ot))) by (rewrite E2; destruct pr; [exact U2|exact U2|exact (proj2 T4)|exact U2]).
  assert (EE : x_src (env64_of w ot) = fst (o_src ot) /\ x_dst (env64_of w ot) = fst (o_dst ot) /\ x_ports (env64_of w ot) = Some (snd (o_src ot), snd (o_dst ot))).
  { unfold env64_of. cbn. rewrite (u32_typed _ (proj1 T4)), (u16_typed _ (proj2 T4)), (u16_typed _ UD), (u32_typed _ UA). auto. }
  destruct EE as (EE1 & EE2 & EE3).
  assert (P1 : p <> 1) by (destruct TE as [(-> & _)|[(-> & _)|(-> & _)]]; discriminate).
  assert (TY : p = 58 -> oct m (l4off mt) = 128 \/ oct m (l4off mt) = 129).
  { intros E. destruct TE as [(X & _)|[(X & _)|(_ & T & _)]]; [congruence|congruence|]. destruct T as [<-|[<-|[]]]; auto. }
  assert (NE : p = 58 -> ~ icmp6_error_type (oct m (l4off mt))) by (intros E; unfold icmp6_error_type; destruct (TY E) as [-> | ->]; cbn; lia).
  pose proof (C74_partial (env64_of w ot) mem m lin mt l hs p F L G PK' (env64_of_ok w ot W) P1 NE ltac:(tauto) LEN) as X. cbv zeta in X. rewrite Ex in X.
  destruct X as (X1 & X2 & X3 & X4 & _ & (big & _ & X6) & X7 & _). specialize (X7 FP). rewrite EE1, EE2, EE3 in *. rewrite skipn_length in X3.
  assert (XO : off64 m hs = 0) by (unfold off64; unfold first_piece in FP; destruct (where_is 44 hs); [exact FP|reflexivity]). rewrite XO in X6.
  pose proof (view_out mem m lin mt l hs p pr (snd A6) (snd D6) _ _ _ _ _ _ o _ _ _ _ F L G PK' FP TE X3 X4 X6 X7) as V. cbv zeta in V.
  pose proof (parse_view mem m lin mt l hs p F L G PK') as V6'. pose proof (o_err_false m lin l mt hs p V6' NE) as E6.
  assert (P2 : proto64 p <> 58 /\ proto64 p <> 6) by (clear - TE N6; destruct TE as [(X & _)|[(-> & _)|(-> & _)]]; [elim N6; exact X|split; discriminate|split; discriminate]).
  assert (PB : proto46 (proto64 p) = p) by (destruct TE as [(-> & _)|[(-> & _)|(-> & _)]]; reflexivity).
  assert (EC : proto64 p = 1 -> oct o 20 = 8 \/ oct o 20 = 0).
  { intros E. assert (E58 : p = 58) by (destruct TE as [(-> & _)|[(-> & _)|(-> & _)]]; [discriminate E|discriminate E|reflexivity]). destruct X7 as (_ & _ & X7 & _). destruct (X7 E58) as (B & _). rewrite !oct_skipn, !Nat.add_0_r in B.
    destruct (echo64_types _ _ _ _ B (TY E58)) as (B1 & B2 & _). destruct (TY E58) as [Y|Y]; auto. }
  assert (NE2 : proto64 p = 1 -> ~ icmp4_error_type (oct o 20)) by (intros E; unfold icmp4_error_type; destruct (EC E) as [-> | ->]; cbn; lia).
  pose proof (a_err_false o _ _ (meta_out mt) (proto64 p) V NE2) as NX.
  unfold step4_46, generate_saddr6_nat64 in E4. rewrite NX, andb_false_r in E4. injection E4 as E4.
  set (e := env46_of w2 true (sum_out m mt (x_sum w)) (fst (o_src o2)) o2) in *.
  assert (UA6 : is_u128 a6). { destruct P6 as (Wt & fo & P). destruct (C01_rfc6052_roundtrip _ _ _ Wt P (proj1 T4)) as (r & Er & Ur & _). congruence. }
  assert (UP2 : is_u16 (snd (o_src o2))) by (rewrite Eo; cbn [snd]; destruct pr; [exact (proj2 T4)|exact (proj2 T4)|exact (proj2 T6)|exact (proj2 T4)]).
  assert (EY : y_src e = a6 /\ y_dst e = fst (o_dst o2) /\ y_ports e = Some (snd (o_src o2), snd (o_dst o2))).
  { unfold e, env46_of. cbn [y_src y_dst y_ports]. rewrite (u128_typed _ (proj1 T6)), (u16_typed _ UP2), (u16_typed _ (proj2 T6)), Eo. cbn [fst]. rewrite (u128_typed _ UA6). auto. }
  destruct EY as (EY1 & EY2 & EY3). pose proof X6 as (_ & _ & _ & Y4 & _ & _ & Y5 & Y6 & Y7 & Y8 & Y9 & Y10 & _). cbn [Nat.add] in Y4, Y7, Y8, Y9, Y10.
  pose proof (C75_view e o _ _ (meta_out mt) (proto64 p) X4 V (env46_of_ok _ _ _ _ _ _ W2) (proj1 P2) NE2 ltac:(tauto) ltac:(cbn; lia) (o_none _ _) Y6) as Z0. cbn [meta_out l4off] in Z0.
  rewrite skipn_length in Z0. specialize (Z0 ltac:(lia) (ex_intro _ _ (ex_intro _ _ EY3)) EC). change (Meta 0 (l4p mt) 20 (20 + (payoff mt - l4off mt))) with (meta_out mt) in Z0. rewrite E4 in Z0.
  destruct Z0 as (_ & Z2 & Z3 & _ & seg' & Z5 & Z6). rewrite EY1, EY2, EY3, PB, Y4, Y7 in *. rewrite Y9, Y10 in Z6. change (y_hairpin e) with true in Z5. cbn iota in Z5. rewrite Z.sub_0_r in Z5.
  exists (o_src ot), (o_dst ot), (o_dst o2), a6. split; [exact Hs1|]. split; [exact Hs2|]. split; [exact E1|]. split; [exact E2|]. split; [exact Ea6|]. split; [exact X1|]. split; [exact Z2|].
  split. { eapply Forall_impl; [|exact Z3]. cbn beta. intros a [A _]. exact A. }
  cbv zeta. assert (EP : match pr with ICMP => snd (o_dst o2) | _ => snd (o_src ot) end = snd (o_src o2)) by (rewrite Eo; reflexivity). rewrite EP.
  exists seg', (tos_of (y_reset e) 0 (oct o 1)). split.
  { exact (sent6_more _ _ _ _ _ _ (fr4_more o 0) _ _ _ _ Y5 Z5). }
  split.
  - assert (TO : ends 1 [8; 0] o (proto64 p) 20 pr (snd (o_src ot)) (snd (o_dst ot))).
    { rewrite <- Y8. refine (ends_out _ _ _ _ _ _ _ _ _ _ _ _ _ _ _ Y8 TE _ X7). intros ->. exact E2. }
    rewrite <- PB. apply (ends_back _ _ _ _ _ _ _ _ _ _ _ _ _ _ TO) with (2 := Z6). intros ->. rewrite Eo. reflexivity.
  - rewrite TS, TD. apply (segments66 _ (y_sum e = CS_PARTIAL) _ _ _ _ _ _ _ _ _ p _ (skipn 20 o) seg' ) with (6 := X7) (7 := Z6).
    + split; [apply skipn_u8; exact F|rewrite skipn_length; lia].
    + apply skipn_u8. exact X4.
    + change (y_sum e) with (sum_out m mt (x_sum w)). unfold sum_out. rewrite E6. change (x_sum (env64_of w ot)) with (x_sum w). destruct (l4p mt), (x_sum w); split; (discriminate || reflexivity).
    + intros E. rewrite oct_skipn, Nat.add_0_r. exact (TY E).
    + destruct (o_l4 m lin l mt hs p V6' FP ltac:(tauto)) as [_ L8]. pose proof (o_pay m lin l mt hs p F V6') as [[? ?] ?]. rewrite skipn_length.
      destruct TE as [(X & _)|[(X & _)|(X & _)]]; [tauto| |auto]. right. left. specialize (L8 (or_introl X)). split; [exact X|lia].
Qed.
