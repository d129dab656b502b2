(** C87, from the IPv6 side: an ICMPv6 error about a packet delivered to the node of
    a mapping goes to whom it was from, and is about the packet that one sent. *)
Require Import Verif.Base Verif.Addr_Model Verif.Addr_Spec Verif.Addr_Properties Verif.Rtrie_Model Verif.Pool4_Model Verif.Fsm_Model Verif.Bib_Model
  Verif.Bib_Find Verif.Bib_Hist Verif.Bib_Spec Verif.Nat64_Model Verif.Nat64_Spec Verif.Nat64_Properties Verif.Nat64_Errors.
Require Import Verif.Csum_Model Verif.Csum_Spec Verif.Csum_Proofs Verif.Csum_Properties Verif.Pkt_Model Verif.Pkt_Spec Verif.Pkt_Proofs Verif.Pkt_Properties
  Verif.Hdr_Model Verif.Hdr_Spec Verif.Hdr_Proofs Verif.Hdr_Properties Verif.Ext_Model Verif.Ext_Spec Verif.Xlat_Model Verif.Xlat_Spec Verif.Xlat_Proofs Verif.Xlat_Proofs46
  Verif.Xlat_Properties Verif.Icmperr_Spec Verif.Icmperr_Properties Verif.Trip_Spec Verif.Trip_Proofs Verif.E2e_Model Verif.E2e_Spec Verif.E2e_Proofs Verif.E2e_Out Verif.E2e_Back Verif.E2e_Err4.
Local Ltac Zify.zify_post_hook ::= idtac.

Lemma inner6_fields : forall m l q hs' p' up' pay' pr S D, Forall is_u8 m -> inner6 m q hs' p' up' pay' -> (q + 40 <= l)%nat -> (pay' <= l <= length m)%nat -> hdr_iterator_last l m q = Ok (p', up') ->
  (p' = 6 -> 5 <= oct m (up' + 12) / 16) ->
  about6 m q p' up' pr S D -> exists h, inner6_at l m q = Ok (Inner (fst S) (fst D) h) /\ about V6 (Inner (fst S) (fst D) h) = Some (pr, S, D).
Proof.
  intros m l q hs' p' up pay' pr S D F (L & _ & C & _ & (T6 & T8 & To) & LP & NE) QL PL LAST DO (A & B & E). unfold inner6_at.
  rewrite direct_ok by lia. cbn [bind]. rewrite LAST. cbn [bind fst snd]. rewrite !be128_field, <- A, <- B.
  destruct E as [(P & -> & E1 & E2)|[(P & -> & E1 & E2)|(P & T & -> & E1 & E2)]]; rewrite P; cbn [Z.eqb Pos.eqb].
  - destruct (T6 P) as [_ X]. specialize (DO P). unfold ports_at. rewrite direct_ok by lia. cbn [bind fst snd]. eexists. split; [reflexivity|]. unfold about. cbn. rewrite !be16_word, <- E1, <- E2, <- !surjective_pairing. reflexivity.
  - specialize (T8 (or_introl P)). unfold ports_at. rewrite direct_ok by lia. cbn [bind fst snd]. eexists. split; [reflexivity|]. unfold about. cbn. rewrite !be16_word, <- E1, <- E2, <- !surjective_pairing. reflexivity.
  - specialize (T8 (or_intror P)). rewrite !direct_ok by lia. cbn [bind]. change (byte m up) with (oct m up).
    assert (X : is_icmp6_error (oct m up) = false) by (unfold is_icmp6_error; destruct T as [<-|[<-|[]]]; reflexivity). rewrite X. cbn [bind]. eexists. split; [reflexivity|]. unfold about. cbn [in_l4 in_src in_dst].
    rewrite be16_word. assert (S = (fst S, word m (up + 4)) /\ D = (fst D, word m (up + 4))) as [-> ->] by (destruct S, D; cbn in *; subst; auto). destruct T as [<-|[<-|[]]]; reflexivity.
Qed.

(** True except of errors C77 leaves out, and those which make a hairpin. [S6]: the
    node of the mapping; [D6]: who it had a packet from, which the error is about. *)
Theorem C87_error6_partial : forall g better n n2 nm w w2 s m lin hs up q hs' p' up' pay' pr S6 S4 D6 a4 st,
  reachable_db s -> typed_db s -> pool6_ok g -> world64 w -> is_u16 (x_id' w) -> Forall is_u8 m -> (lin <= length m)%nat ->
  packet6 m hs 58 up q -> icmp6_error_type (oct m up) -> inner6 m q hs' p' up' pay' -> about6 m q p' up' pr D6 S6 ->
  where_is 44 hs = None -> where_is 44 hs' = None -> (p' = 6 -> 5 <= oct m (up' + 12) / 16) ->
  x_sum w <> CS_PARTIAL -> (attr6 m up <> 0 -> Z.of_nat (up' - q) <= attr6 m up) ->
  rfc6052_6to4 (g_pool6 g) (fst D6) = Some a4 -> prefix6_contains (g_pool6 g) (field m 8 16) = false -> prefix6_contains (g_pool6 g) (field m 24 16) = true ->
  has (get_table s pr) S6 S4 st ->
  let D4 := (a4, match pr with ICMP => snd S4 | _ => snd D6 end) in
  pool4db_contains (g_pool4 g) (n_ifas n) pr (fst D4) (snd D4) = Ok false ->
  exists r, core6 g better n n2 nm w w2 s true m lin = Ok (r, s, []) /\
    match r with
    | Packet4 o => 1 < oct m 7 /\ routing_done m hs /\ (x_sum w = CS_NONE -> ok6 (field m 8 16) (field m 24 16) 58 (skipn up m))
        /\ (length o <= 576)%nat /\ Forall is_u8 o
        /\ ipv4_header o 0 (kept (dscp_only (x_tos w)) (tos_of (reset_tos (x_tos w)) (new_tos (x_tos w)) (tclass m 0)))
             (Z.of_nat (length o)) (x_id w) False False 0 (oct m 7 - 1) 1 (fst S4) (fst D4)
        /\ checks (skipn 20 o) /\ becomes rules64 (oct m up) (oct m (up + 1)) (oct o 20) (oct o 21)
        /\ rest64 (x_inmtu w) (x_mtu w) (skipn up m) (skipn 20 o)
        /\ exists inn, inner_packet64 (Some (snd D4, snd S4)) (tos_of (reset_tos (x_tos w)) (new_tos (x_tos w)) (tclass m q)) (x_id' w) (fst D4) (fst S4) m q hs' p' up' inn
           /\ talk4 inn 20 pr D4 S4 /\ carried64 m up up' inn o
    | Untranslated x => (x = XIcmp J64_TTL E_TTL 0 /\ oct m 7 <= 1)
        \/ (exists z, x = XIcmp J64_SEGMENTS_LEFT E_HDR_FIELD (Z.of_nat (z + 3)) /\ where_is 43 hs = Some z /\ oct m (z + 3) <> 0)
        \/ (exists j, x = XDrop j /\ ((forall t c, ~ becomes rules64 (oct m up) (oct m (up + 1)) t c)
              \/ (oct m up = 4 /\ oct m (up + 1) = 0 /\ forall p, ~ points pointers64 (rest (skipn up m)) p)
              \/ (j = J64_ICMP_CSUM /\ x_sum w = CS_NONE /\ ~ ok6 (field m 8 16) (field m 24 16) 58 (skipn up m))
              \/ (j = J_ICMPEXT_BIG /\ Z.of_nat (length m - (up + 8)) < attr6 m up)))
    | _ => False
    end.
Proof.
  intros g better n n2 nm w w2 s m lin hs up q hs' p' up' pay' pr S6 S4 D6 a4 st R Ty P6 W Uid F L PK ER IN AB W1 W2 DO NP AT Ex C1 C2 Hh D4 Hp.
  destruct (C39_accepts m lin hs 58 up q F L PK) as (mt & l & G & <- & <-). set (up := l4off mt) in *. set (q := payoff mt) in *.
  pose proof (parse_view true m lin mt l hs 58 F L G PK) as V. destruct (v_inner _ _ _ _ _ _ V eq_refl ER) as (hs2 & p2 & up2 & pay2 & IN2 & PL & LAST).
  assert (X : hs2 = hs' /\ p2 = p' /\ up2 = up'). { pose proof IN as (_ & _ & C & _). pose proof IN2 as (_ & _ & C' & _). destruct (chain_det _ _ _ _ _ _ C _ _ _ C') as (-> & -> & ->). auto. }
  destruct X as (-> & -> & ->). pose proof (v_lin _ _ _ _ _ _ V) as LL. pose proof (v_pay _ _ _ _ _ _ V) as VP. pose proof (v_40 _ _ _ _ _ _ V) as V40. fold q in VP.
  assert (Q8 : q = (up + 8)%nat). { destruct PK as (_ & _ & T & _ & _ & X). destruct (X eq_refl) as (X0 & _). destruct (T) as (_ & T8 & _); [unfold first_piece; rewrite W1; exact Logic.I|]. exact (T8 (or_intror eq_refl)). }
  assert (QL : (q + 40 <= l)%nat).
  { destruct IN2 as (_ & _ & C & _ & (T6 & T8 & _) & _). apply chain_le in C. destruct AB as (_ & _ & [(P & _)|[(P & _)|(P & _)]]); [destruct (T6 P); specialize (DO P); lia|specialize (T8 (or_introl P)); lia|specialize (T8 (or_intror P)); lia]. }
  destruct (inner6_fields m l q hs' p' up' pay2 pr D6 S6 F IN2 QL ltac:(lia) LAST DO AB) as (h & Ei & Ab).
  set (k := Pkt V6 (field m 8 16) (field m 24 16) (LIcmp (oct m up) 0 (Inner (fst D6) (fst S6) h))).
  assert (Ek : fields_at V6 l m mt = Ok k).
  { unfold fields_at. fold up. rewrite direct_ok by lia. cbn [bind]. rewrite (proj2 (v_icmp _ _ _ _ _ _ V) eq_refl). rewrite direct_ok by lia. cbn [bind]. change (byte m up) with (oct m up).
    assert (X : is_icmp6_info (oct m up) = false /\ is_icmp6_error (oct m up) = true) by (unfold icmp6_error_type in ER; cbn [In] in ER; repeat (destruct ER as [<-|ER]; [split; reflexivity|]); destruct ER). destruct X as [-> ->].
    rewrite <- Q8, Ei. cbn [bind]. reflexivity. }
  assert (IE : icmp_error k (Inner (fst D6) (fst S6) h)) by (exists (oct m up), 0; split; [reflexivity|exact ER]).
  destruct (error_view k _ _ _ _ IE Ab) as (No & Pid & Ev).
  set (v := View V6 (k_src k) (k_dst k) ICMP true (Seg V6 false false false) S6 D6 pr).
  assert (Es : steps23 g n s v = Ok (Sent V4 (Out S4 D4), s, []) /\ is_hairpin g n v (Out S4 D4) = Ok false).
  { split; [|exact Hp]. unfold steps23, filtering_and_updating, fu_admit, v. cbn [v_fam v_saddr v_daddr v_err k k_src k_dst]. rewrite C1, C2. cbn [bind negb].
    unfold compute_out_tuple, find_bib, bib_find. cbn [v_fam v_pr v_dst v_src]. rewrite (find6_has pr _ _ _ _ (reachable_table _ _ R No) Hh). cbn [bind]. rewrite Ex. cbn [bind flip]. reflexivity. }
  destruct Es as [Es Eh]. destruct (Ty pr S6 S4 st Hh) as [T6 T4].
  assert (Ua : is_u32 a4) by (destruct P6 as (_ & fo & P); exact (proj1 (C02_6to4_extracts _ _ _ _ P Ex))).
  assert (UD : is_u16 (snd D4)). { unfold D4. cbn [snd]. destruct AB as (_ & _ & E). destruct (ends_u16 _ _ _ _ _ _ _ _ F E) as [X _]. destruct pr; try exact X. apply T4. }
  set (e := env64_of w (Out S4 D4)).
  assert (EE : x_src e = fst S4 /\ x_dst e = fst D4 /\ x_src' e = fst D4 /\ x_dst' e = fst S4 /\ x_ports e = Some (snd S4, snd D4)).
  { unfold e, env64_of. cbn [x_src x_dst x_src' x_dst' x_ports o_src o_dst]. rewrite (u32_typed _ (proj1 T4)), (u16_typed _ (proj2 T4)), (u16_typed _ UD), (u32_typed (fst D4) Ua). auto. }
  destruct EE as (E1 & E2 & E3 & E4 & E5).
  assert (PN : p' <> 1) by (destruct AB as (_ & _ & [(-> & _)|[(-> & _)|(-> & _)]]); discriminate).
  assert (PI : p' = 58 -> pr = ICMP) by (intros E; destruct AB as (_ & _ & [(X & _)|[(X & _)|(_ & _ & X & _)]]); [congruence|congruence|exact X]).
  assert (I64 : inner64_ok e) by (split; [exact Uid|]; rewrite E3, E4; split; [exact Ua|apply T4]).
  pose proof (C77_64_partial e true m lin mt l hs hs' p' up' pay2 F L G PK (env64_of_ok w _ W) I64 ER IN2 W1 W2 PN DO) as X. fold up q in X.
  specialize (X ltac:(intros E a b Eq; rewrite E5 in Eq; injection Eq as <- <-; unfold D4; cbn [snd]; rewrite (PI E); reflexivity) NP AT).
  unfold core6. rewrite G, Ek. cbn [bind]. rewrite Ev. cbn [k_fam k]. fold v. rewrite Es. cbn [bind]. fold e.
  destruct (xlat64 e l m mt) as [o|j|j r i|]; [rewrite Eh; cbn [bind]| | |destruct X]; (eexists; split; [reflexivity|]).
  - destruct X as (X1 & X2 & X3 & X4 & X5 & X6 & X7 & X8 & X9 & inn & X10 & X11). rewrite E1, E2, E3, E4, E5 in *. cbn [rev_ports] in X10.
    split; [exact X1|]. split; [exact X2|]. split; [exact X3|]. split; [exact X4|]. split; [exact X5|]. split; [exact X6|]. split; [exact X7|]. split; [exact X8|]. split; [exact X9|].
    exists inn. split; [exact X10|]. split; [|exact X11]. destruct X10 as (_ & _ & HD & SG). destruct AB as (_ & _ & AB). unfold ipv4_header in HD. destruct HD as (_ & _ & _ & _ & _ & _ & _ & _ & _ & HP & HS & HDD & _).
    split; [symmetry; exact HS|]. split; [symmetry; exact HDD|]. cbn [Nat.add] in HP. refine (ends_out _ _ _ _ _ _ _ _ _ _ _ _ _ _ _ HP AB _ SG). intros ->. reflexivity.
  - cbn [failed]. right. right. exists j. split; [reflexivity|]. destruct X as [X|[X|[X|[(_ & X1 & X2)|X]]]]; [auto|auto|auto| |auto].
    exfalso. destruct AB as (_ & _ & [(Y & _)|[(Y & _)|(_ & T & _)]]); [congruence|congruence|]. pose proof (oct_u8 m (up' + 1) F) as U8. unfold is_u8 in U8. destruct T as [T|[T|[]]]; rewrite <- T in X2; [apply (X2 8 0)|apply (X2 0 0)]; (eexists 0, 255, _; split; [cbn; auto|split; [lia|reflexivity]]).
  - cbn [failed]. destruct X as [(-> & -> & -> & X)|(-> & -> & z & X1 & X2 & ->)]; [auto|]. right. left. exists z. auto.
Qed.
Print Assumptions C87_error6_partial.
