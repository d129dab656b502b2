(** C87, from the IPv4 side: an ICMP error about a packet of a mapping goes to the
    node the mapping is of, and is about the packet that node sent. *)
Require Import Verif.Base Verif.Addr_Model Verif.Addr_Spec Verif.Addr_Properties Verif.Rtrie_Model Verif.Pool4_Model Verif.Fsm_Model Verif.Bib_Model
  Verif.Bib_Find Verif.Bib_Hist Verif.Bib_Spec Verif.Nat64_Model Verif.Nat64_Spec Verif.Nat64_Properties Verif.Nat64_Errors.
Require Import Verif.Csum_Model Verif.Csum_Spec Verif.Csum_Proofs Verif.Csum_Properties Verif.Pkt_Model Verif.Pkt_Spec Verif.Pkt_Proofs Verif.Pkt_Properties
  Verif.Hdr_Model Verif.Hdr_Spec Verif.Hdr_Proofs Verif.Hdr_Properties Verif.Ext_Model Verif.Ext_Spec Verif.Xlat_Model Verif.Xlat_Spec Verif.Xlat_Proofs Verif.Xlat_Proofs46
  Verif.Xlat_Properties Verif.Icmperr_Spec Verif.Icmperr_Properties Verif.Trip_Spec Verif.Trip_Proofs Verif.E2e_Model Verif.E2e_Spec Verif.E2e_Proofs Verif.E2e_Out Verif.E2e_Back.
Local Ltac Zify.zify_post_hook ::= idtac.

Lemma ends_skipn icmp echo m k p pr a b : ends icmp echo (skipn k m) p 0 pr a b -> ends icmp echo m p k pr a b.
Proof. unfold ends. cbn [Nat.add]. rewrite !word_skipn, oct_skipn, !Nat.add_0_r. auto. Qed.
Lemma field4_u32 m i : Forall is_u8 m -> (i + 4 <= length m)%nat -> is_u32 (field m i 4).
Proof.
  intros F L. unfold field, is_u32. change (2^32) with (256 ^ 4). pose proof (be_of_bound (firstn 4 (skipn i m))) as X. rewrite firstn_length, skipn_length, Nat.min_l in X by lia. apply X. apply firstn_u8. apply skipn_u8. exact F.
Qed.
(** The packet inside, as the translator reads it *)
Lemma inner4_fields : forall m l q pay' pr S D, Forall is_u8 m -> inner4 m q pay' -> (pay' <= l <= length m)%nat -> (oct m (q + 9) = 6 -> 5 <= oct m (q + ihl m q + 12) / 16) ->
  about4 m q pr S D -> exists h, inner4_at l m q = Ok (Inner (fst S) (fst D) h) /\ about V4 (Inner (fst S) (fst D) h) = Some (pr, S, D).
Proof.
  intros m l q pay' pr S D F (L & _ & I20 & _ & _ & (T6 & T8 & To) & LP) PL DO (A & B & E). unfold inner4_at. rewrite ip_hlen_ihl. set (up := (q + ihl m q)%nat) in *.
  assert (QL : (q + 20 <= l)%nat).
  { assert (up <= pay')%nat; [|unfold up in *; lia]. destruct E as [(P & _)|[(P & _)|(P & _)]]; [destruct (T6 P); lia|specialize (T8 (or_introl P)); lia|specialize (T8 (or_intror P)); lia]. }
  rewrite direct_ok by lia. cbn [bind]. rewrite !be32_field by lia. rewrite <- A, <- B. change (byte m (q + 9)) with (oct m (q + 9)).
  destruct E as [(P & -> & E1 & E2)|[(P & -> & E1 & E2)|(P & T & -> & E1 & E2)]]; rewrite P; cbn [Z.eqb Pos.eqb].
  - destruct (T6 P) as [_ X]. specialize (DO P). unfold ports_at. rewrite direct_ok by lia. cbn [bind fst snd]. eexists. split; [reflexivity|]. unfold about. cbn. rewrite !be16_word, <- E1, <- E2, <- !surjective_pairing. reflexivity.
  - specialize (T8 (or_introl P)). unfold ports_at. rewrite direct_ok by lia. cbn [bind fst snd]. eexists. split; [reflexivity|]. unfold about. cbn. rewrite !be16_word, <- E1, <- E2, <- !surjective_pairing. reflexivity.
  - specialize (T8 (or_intror P)). rewrite !direct_ok by lia. cbn [bind]. change (byte m up) with (oct m up).
    assert (X : is_icmp4_error (oct m up) = false) by (unfold is_icmp4_error; destruct T as [<-|[<-|[]]]; reflexivity). rewrite X. cbn [bind]. eexists. split; [reflexivity|]. unfold about. cbn [in_l4 in_src in_dst].
    rewrite be16_word. assert (S = (fst S, word m (up + 4)) /\ D = (fst D, word m (up + 4))) as [-> ->] by (destruct S, D; cbn in *; subst; auto). destruct T as [<-|[<-|[]]]; reflexivity.
Qed.

(** True except of errors C77 leaves out. *)
Theorem C87_error4_partial : forall g better n w s m lin up q pr S6 S4 D4 st,
  reachable_db s -> typed_db s -> pool6_ok g -> world46 w up -> Forall is_u8 m -> (lin <= length m)%nat ->
  packet4 m 1 up q -> icmp4_error_type (oct m up) -> about4 m q pr S4 D4 ->
  (oct m (q + 9) = 6 -> 5 <= oct m (q + ihl m q + 12) / 16) -> (20 <= up)%nat -> options m up 20 -> Z.of_nat (length m) <= 65527 ->
  (96 <= length (y_head w) + (q + ihl m q))%nat -> y_sum w <> CS_PARTIAL -> (attr4 m up <> 0 -> Z.of_nat (ihl m q) <= attr4 m up) ->
  has (get_table s pr) S6 S4 st -> pool4db_contains (g_pool4 g) (n_ifas n) pr (fst S4) (snd S4) = Ok true ->
  exists a6 r6 r, rfc6052_4to6 (g_pool6 g) (fst D4) = Some a6 /\ rfc6052_4to6 (g_pool6 g) (field m 12 4) = Some r6 /\ core4 g better n w s true m lin = Ok (r, s, []) /\
    let D6 := (a6, match pr with ICMP => snd S6 | _ => snd D4 end) in
    let who := if better then r6 else a6 in
    match r with
    | Packets6 outs => exists o, outs = [o] /\ 1 < oct m 8 /\ (y_sum w = CS_NONE -> checks (skipn up m))
        /\ (length o <= 1280)%nat /\ 1280 <= Z.min (y_mtu w) (y_lim w) /\ Forall is_u8 o
        /\ ipv6_header o 0 (tos_of (y_reset w) 0 (oct m 1)) (Z.of_nat (length o) - 40) 58 (oct m 8 - 1) who (fst S6)
        /\ ok6 who (fst S6) 58 (skipn 40 o) /\ becomes rules46 (oct m up) (oct m (up + 1)) (oct o 40) (oct o 41)
        /\ rest46 (y_plateaus w) (y_inmtu w) (y_mtu w) (word m (q + 2)) (skipn up m) (skipn 40 o)
        /\ exists inn l3', inner_packet46 (Some (snd S6, snd D6)) (tos_of (y_reset w) 0 (oct m (q + 1))) (fst S6) (fst D6) m q l3' inn
           /\ ends 58 [128; 129] inn (proto46 (oct m (q + 9))) l3' pr (snd S6) (snd D6) /\ carried46 m up (ihl m q) l3' inn o
    | Untranslated x => (x = XIcmp J46_TTL E_TTL 0 /\ oct m 8 <= 1)
        \/ (x = XIcmp J46_SRC_ROUTE E_SRC_ROUTE 0 /\ exists o, at_opt m up 20 o /\ source_route m o /\ unexpired m o)
        \/ (exists j, x = XDrop j /\ ((forall t c, ~ becomes rules46 (oct m up) (oct m (up + 1)) t c)
              \/ (oct m up = 12 /\ forall p, ~ points pointers46 (oct m (up + 4)) p)
              \/ (j = J46_BAD_MTU /\ Z.min (y_mtu w) (y_lim w) < 1280)
              \/ (j = J46_ICMP_CSUM /\ y_sum w = CS_NONE /\ ~ checks (skipn up m))
              \/ (j = J_ICMPEXT_BIG /\ Z.of_nat (length m - (up + 8)) < attr4 m up)))
    | _ => False
    end.
Proof.
  intros g better n w s m lin up q pr S6 S4 D4 st R Ty P6 W F L PK ER AB DO U20 OPT LEN HR NP AT Hh Hp.
  assert (P1 : oct m 9 = 1) by (destruct PK as (_ & <- & _); reflexivity).
  destruct (C62_accepts m lin 1 up q L PK) as (mt & l & G & <- & <-). set (up := l4off mt) in *. set (q := payoff mt) in *.
  pose proof (parse_view4 true m lin mt l L G) as V. destruct (w_inner _ _ _ _ _ V P1 ER) as (pay' & IN & PL). pose proof (w_lin _ _ _ _ _ V) as LL.
  destruct (inner4_fields m l q pay' pr S4 D4 F IN ltac:(lia) DO AB) as (h & Ei & Ab).
  assert (Q8 : q = (up + 8)%nat). { destruct PK as (_ & _ & _ & T & _ & _ & X). destruct (X eq_refl) as (X0 & _). destruct (T X0) as (_ & T8 & _). exact (T8 (or_intror eq_refl)). }
  pose proof (w_pay _ _ _ _ _ V) as WP. fold q in WP. pose proof (w_20 _ _ _ _ _ V) as W20.
  set (k := Pkt V4 (field m 12 4) (field m 16 4) (LIcmp (oct m up) 0 (Inner (fst S4) (fst D4) h))).
  assert (Ek : fields_at V4 l m mt = Ok k).
  { unfold fields_at. fold up. rewrite direct_ok by lia. cbn [bind]. rewrite (proj2 (w_icmp _ _ _ _ _ V) P1). rewrite direct_ok by lia. cbn [bind]. change (byte m up) with (oct m up).
    assert (X : is_icmp4_info (oct m up) = false /\ is_icmp4_error (oct m up) = true) by (unfold icmp4_error_type in ER; cbn [In] in ER; repeat (destruct ER as [<-|ER]; [split; reflexivity|]); destruct ER). destruct X as [-> ->].
    rewrite <- Q8, Ei. cbn [bind]. rewrite !be32_field by lia. reflexivity. }
  assert (IE : icmp_error k (Inner (fst S4) (fst D4) h)) by (exists (oct m up), 0; split; [reflexivity|exact ER]).
  destruct (error_view k _ _ _ _ IE Ab) as (No & _ & Ev).
  assert (UD : is_u32 (fst D4)). { destruct AB as (_ & -> & _). apply field4_u32; [exact F|destruct IN; lia]. }
  destruct (C59_errors4 g n n true Continue s k _ pr S6 S4 D4 st R P6 eq_refl IE Ab UD Hh Hp) as (a6 & Ea & Hc).
  pose proof P6 as (Wt & fo & Pv). assert (U12 : is_u32 (field m 12 4)) by (apply field4_u32; [exact F|lia]).
  destruct (C01_rfc6052_roundtrip _ _ _ Wt Pv U12) as (r6 & Er & Ur & _). destruct (C01_rfc6052_roundtrip _ _ _ Wt Pv UD) as (a6' & Ea' & Ua & _). assert (a6' = a6) by congruence. subst a6'.
  set (o := Out (a6, match pr with ICMP => snd S6 | _ => snd D4 end) S6) in *.
  assert (Es : steps23 g n s (View V4 (k_src k) (k_dst k) ICMP true (Seg V4 false false false) D4 S4 pr) = Ok (Sent V6 o, s, [])).
  { unfold core_common in Hc. rewrite Ev in Hc. cbn [k_fam k] in Hc. unbind Hc r E1. destruct r as [[o1 s1] evs1]. rewrite E1. destruct o1 as [f o1|y]; [|discriminate]. unfold is_hairpin in Hc. cbn [v_fam bind] in Hc. exact Hc. }
  exists a6, r6. set (D6 := (a6, match pr with ICMP => snd S6 | _ => snd D4 end)). set (who := if better then r6 else a6).
  assert (Eg : generate_saddr6_nat64 g better m mt o = Some who).
  { unfold generate_saddr6_nat64, error4. rewrite (proj2 (w_icmp _ _ _ _ _ V) P1). fold up. change (byte m up) with (oct m up).
    assert (X : is_icmp4_error (oct m up) = true) by (unfold icmp4_error_type in ER; cbn [In] in ER; repeat (destruct ER as [<-|ER]; [reflexivity|]); destruct ER). rewrite X, andb_true_r. unfold who. rewrite be32_field by lia. destruct better; [exact Er|reflexivity]. }
  destruct (Ty pr S6 S4 st Hh) as [T6 T4].
  set (e := env46_of w false (y_sum w) who o) in *. assert (Uw : is_u128 who) by (unfold who; destruct better; assumption).
  assert (UD6 : is_u16 (snd D6)). { unfold D6. cbn [snd]. destruct AB as (_ & _ & E). destruct (ends_u16 _ _ _ _ _ _ _ _ F E) as [_ X]. destruct pr; try exact X. apply T6. }
  assert (EY : y_src e = who /\ y_dst e = fst S6 /\ y_src' e = fst S6 /\ y_dst' e = a6 /\ y_ports e = Some (snd D6, snd S6)).
  { unfold e, env46_of, o. cbn [y_src y_dst y_src' y_dst' y_ports o_src o_dst fst snd]. rewrite (u128_typed _ (proj1 T6)), (u128_typed _ Uw), (u128_typed _ Ua), (u16_typed _ (proj2 T6)). fold D6. change (match pr with ICMP => snd S6 | _ => snd D4 end) with (snd D6). rewrite (u16_typed _ UD6). auto. }
  destruct EY as (EY1 & EY2 & EY3 & EY4 & EY5).
  assert (PN : oct m (q + 9) <> 58) by (destruct AB as (_ & _ & [(-> & _)|[(-> & _)|(-> & _)]]); discriminate).
  assert (NE : oct m (q + 9) = 1 -> ~ icmp4_error_type (oct m (q + ihl m q))).
  { intros E. destruct AB as (_ & _ & [(X & _)|[(X & _)|(_ & T & _)]]); [congruence|congruence|]. unfold icmp4_error_type. destruct T as [<-|[<-|[]]]; cbn; lia. }
  assert (PI : oct m (q + 9) = 1 -> pr = ICMP) by (intros E; destruct AB as (_ & _ & [(X & _)|[(X & _)|(_ & _ & X & _)]]); [congruence|congruence|exact X]).
  pose proof (C77_46_partial e true m lin mt l F L G (env46_of_ok _ _ _ _ _ _ W) ltac:(rewrite EY3; apply T6) ltac:(rewrite EY4; exact Ua) P1 ER HR U20 OPT LEN NE PN DO) as X.
  fold up q in X. specialize (X ltac:(intros E a b Eq; rewrite EY5 in Eq; injection Eq as <- <-; unfold D6; cbn [snd]; rewrite (PI E); reflexivity) NP AT).
  unfold core4. rewrite G, Ek. cbn [bind]. rewrite Ev. cbn [k_fam k]. rewrite Es. cbn [bind]. unfold step4_46. rewrite Eg. fold e.
  destruct (xlat46 e l m mt) as [outs|j|j r i|]; [| | |destruct X]; (eexists; split; [exact Ea|]; split; [exact Er|]; split; [reflexivity|]; cbv zeta).
  - destruct X as (o' & X1 & X2 & _ & X3 & X4 & X5 & X6 & X7 & X8 & X9 & X10 & inn & l3' & X11 & X12). rewrite EY1, EY2, EY3, EY4, EY5 in *. cbn [rev_ports] in X11.
    exists o'. split; [exact X1|]. split; [exact (X2 eq_refl)|]. split; [exact X3|]. split; [exact X4|]. split; [exact X5|]. split; [exact X6|]. split; [exact X7|]. split; [exact X8|]. split; [exact X9|]. split; [exact X10|].
    exists inn, l3'. split; [exact X11|]. split; [|exact X12]. apply ends_skipn. destruct AB as (_ & _ & AB). destruct X11 as (_ & _ & _ & _ & X11).
    refine (ends_back _ _ _ _ _ _ _ _ _ _ _ _ _ _ AB _ X11). intros ->. reflexivity.
  - cbn [failed]. right. right. exists j. split; [reflexivity|]. destruct X as [X|[X|[X|[X|[(X1 & X2 & X3)|[(_ & _ & _ & X & _)|X]]]]]]; [auto|auto|auto|auto 10| |congruence|auto 10].
    exfalso. destruct AB as (_ & _ & [(Y & _)|[(Y & _)|(_ & T & _)]]); [congruence|congruence|]. pose proof (oct_u8 m (q + ihl m q + 1) F) as U8. unfold is_u8 in U8. destruct T as [T|[T|[]]]; rewrite <- T in X3; [apply (X3 128 0)|apply (X3 129 0)]; (eexists 0, 255, _; split; [cbn; auto|split; [lia|reflexivity]]).
  - cbn [failed]. destruct X as [(-> & -> & -> & _ & X)|(-> & -> & -> & X)]; auto.
Qed.
Print Assumptions C87_error4_partial.
