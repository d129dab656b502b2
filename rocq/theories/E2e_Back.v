(** C86, the way back: an IPv4 packet of a session goes to the node the session is of. *)
Require Import Verif.Base Verif.Addr_Model Verif.Addr_Spec Verif.Addr_Properties Verif.Rtrie_Model Verif.Pool4_Model Verif.Fsm_Model Verif.Bib_Model
  Verif.Bib_Find Verif.Bib_Hist Verif.Bib_Spec Verif.Nat64_Model Verif.Nat64_Spec Verif.Nat64_Properties Verif.Nat64_Errors.
Require Import Verif.Csum_Model Verif.Csum_Spec Verif.Csum_Proofs Verif.Csum_Properties Verif.Pkt_Model Verif.Pkt_Spec Verif.Pkt_Proofs Verif.Pkt_Properties
  Verif.Hdr_Model Verif.Hdr_Spec Verif.Hdr_Proofs Verif.Hdr_Properties Verif.Ext_Model Verif.Xlat_Model Verif.Xlat_Spec Verif.Xlat_Proofs Verif.Xlat_Proofs46
  Verif.Xlat_Properties Verif.Trip_Spec Verif.Trip_Proofs Verif.E2e_Model Verif.E2e_Spec Verif.E2e_Proofs Verif.E2e_Out.
Local Ltac Zify.zify_post_hook ::= idtac.

(** No GSO, fraglists left out; headroom, the size of new sk_buffs, and steps for
    the options, as in C75. *)
Definition world46 (w : env46) (up : nat) : Prop :=
  y_gso w = 0 /\ y_flist w = [] /\ (48 <= length (y_head w) + up)%nat /\ Forall is_u8 (y_head w)
  /\ (forall i, length (y_fresh w i) = 48%nat) /\ (forall i, Forall is_u8 (y_fresh w i)) /\ (up < 20 + y_fuel w)%nat.
Lemma env46_of_ok w hp sum a o up : world46 w up -> env46_ok (env46_of w hp sum a o) up.
Proof. intros (A & B & C & D & E & G & H). unfold env46_ok, env46_of. cbn. split; [split; apply u16_u|]. split; [apply u128_u|]. split; [apply u128_u|]. auto 10. Qed.

Lemma fields4 : forall mem m lin mt l pr S D, Forall is_u8 m -> (lin <= length m)%nat -> pkt_init_ipv4 mem m lin = Good (mt, l) ->
  fr4_offset m 0 = 0 -> (oct m 9 = 6 -> 5 <= oct m (l4off mt + 12) / 16) -> talk4 m (l4off mt) pr S D ->
  exists k, fields_at V4 l m mt = Ok k /\ k_fam k = V4 /\ flow k = Some (pr, S, D) /\ (pr = TCP -> is_syn k = bit (oct m (l4off mt + 13)) 1).
Proof.
  intros mem m lin mt l pr S D F L G FP DO (A & B & E).
  pose proof (parse_view4 mem m lin mt l L G) as V. assert (P58 : oct m 9 <> 58) by (destruct E as [(-> & _)|[(-> & _)|(-> & _)]]; discriminate).
  destruct (a_l4 m lin l mt _ F V P58 (fun x _ => DO x) FP) as [L6 L8]. pose proof (a_pay m lin l mt _ V) as U.
  destruct V as [_ Vf Vt Vu Vi Vl Vp Vll _]. unfold fields_at. rewrite direct_ok by lia. cbn [bind]. rewrite !be32_field by lia.
  destruct E as [(P & -> & E1 & E2)|[(P & -> & E1 & E2)|(P & T & -> & E1 & E2)]].
  - rewrite (proj2 Vt P). specialize (L6 P). unfold ports_at. rewrite !direct_ok by lia. cbn [bind fst snd]. eexists. split; [reflexivity|]. split; [reflexivity|].
    unfold flow, is_syn. cbn [k_l4 k_src k_dst]. rewrite !be16_word, <- E1, <- E2, <- A, <- B, <- !surjective_pairing. auto.
  - rewrite (proj2 Vu P). specialize (L8 (or_introl P)). unfold ports_at. rewrite !direct_ok by lia. cbn [bind fst snd]. eexists. split; [reflexivity|]. split; [reflexivity|].
    unfold flow, is_syn. cbn [k_l4 k_src k_dst]. rewrite !be16_word, <- E1, <- E2, <- A, <- B, <- !surjective_pairing. split; [reflexivity|discriminate].
  - rewrite (proj2 Vi P). specialize (L8 (or_intror P)). rewrite !direct_ok by lia. cbn [bind]. change (byte m (l4off mt)) with (oct m (l4off mt)).
    assert (X : is_icmp4_info (oct m (l4off mt)) = true) by (unfold is_icmp4_info; destruct T as [<-|[<-|[]]]; reflexivity). rewrite X. cbn [bind]. eexists. split; [reflexivity|]. split; [reflexivity|].
    split; [|discriminate]. unfold flow. cbn [k_l4 k_src k_dst k_fam]. rewrite be16_word, <- A, <- B.
    assert (S = (fst S, word m (l4off mt + 4)) /\ D = (fst D, word m (l4off mt + 4))) as [-> ->] by (destruct S, D; cbn in *; subst; auto). destruct T as [<-|[<-|[]]]; reflexivity.
Qed.

Lemma core_back : forall g n n2 nm x2 s k pr a b o s' evs, k_fam k = V4 -> flow k = Some (pr, a, b) -> core_common g n n2 nm Continue x2 s k = Ok (Sent V6 o, s', evs) ->
  exists v, determine_in_tuple k = (Continue, Some v) /\ steps23 g n s v = Ok (Sent V6 o, s', evs).
Proof.
  intros g n n2 nm x2 s k pr a b o s' evs Hf Fl H. unfold core_common in H. rewrite (flow_view _ _ _ _ Fl), Hf in *. eexists. split; [reflexivity|].
  unbind H r E1. destruct r as [[o1 s1] evs1]. rewrite E1. destruct o1 as [f o1|y]; [|discriminate]. unfold is_hairpin in H. cbn [v_fam bind] in H. exact H.
Qed.

(** The ends of what is sent *)
Lemma ends_back m up pr sp dp P s d s4 d4 s6 d6 p seg' : ends 1 [8; 0] m p up pr sp dp -> (pr = ICMP -> d = s) ->
  segment46 P (Some (s, d)) s4 d4 s6 d6 p (skipn up m) seg' -> ends 58 [128; 129] seg' (proto46 p) 0 pr s d.
Proof.
  intros E Hi (G6 & G17 & G58 & _). destruct E as [(-> & -> & _)|[(-> & -> & _)|(-> & T & -> & _)]].
  - left. destruct (G6 eq_refl) as ((_ & _ & A & B) & _). change 1%nat with (0 + 1)%nat in A. rewrite <- word_nth in A. change 3%nat with (2 + 1)%nat in B. rewrite <- word_nth in B. auto.
  - right. left. destruct (G17 eq_refl) as ((_ & _ & A & B) & _). change 1%nat with (0 + 1)%nat in A. rewrite <- word_nth in A. change 3%nat with (2 + 1)%nat in B. rewrite <- word_nth in B. auto.
  - right. right. destruct (G58 eq_refl) as (A & (_ & B & _) & _). cbn [option_map fst] in B. rewrite !oct_skipn, !Nat.add_0_r in A.
    destruct (echo46_types _ _ _ _ A) as [A1 _]. { unfold icmp4_error_type. destruct T as [<-|[<-|[]]]; cbn; lia. }
    split; [reflexivity|]. split; [destruct A1 as [[_ ->]|[_ ->]]; cbn; auto|]. split; [reflexivity|]. rewrite (Hi eq_refl). auto.
Qed.

(** True except of packets C75 leaves out, and of TCP sessions in which a packet is
    stored (C25). [S4] is the address the node has in pool4, [D4] who sends. *)
Theorem C86_back_partial : forall g better n w s m lin up pay pr S6 S4 D4,
  reachable_db s -> typed_db s -> pool6_ok g -> world46 w up -> Forall is_u8 m -> (lin <= length m)%nat ->
  packet4 m (oct m 9) up pay -> fr4_offset m 0 = 0 -> talk4 m up pr D4 S4 ->
  (oct m 9 = 6 -> 5 <= oct m (up + 12) / 16) -> (20 <= up)%nat -> options m up 20 -> Z.of_nat (length m - up) <= 65515 ->
  (exists x, has_session (get_table s pr) S6 S4 x D4) -> (pr = TCP -> open_session (d_tcp s) S6 S4 D4) ->
  pool4db_contains (g_pool4 g) (n_ifas n) pr (fst S4) (snd S4) = Ok true -> ~ In false (n_al n) ->
  exists a6 r s' evs, rfc6052_4to6 (g_pool6 g) (fst D4) = Some a6 /\ core4 g better n w s true m lin = Ok (r, s', evs) /\
    let D6 := (a6, match pr with ICMP => snd S6 | _ => snd D4 end) in
    match r with
    | Packets6 outs => 1 < oct m 8 /\ Forall (Forall is_u8) outs
        /\ (forall o, at_opt m up 20 o -> source_route m o -> exists o', (o' <= o)%nat /\ at_opt m up 20 o' /\ source_route m o' /\ ~ unexpired m o')
        /\ Forall (fun o => Z.of_nat (length o) <= y_mtu w /\ (~ df_set m 0 -> Z.of_nat (length o) <= y_lim w)) outs
        /\ (df_set m 0 -> length outs = 1%nat)
        /\ exists seg', sent6 (tos_of (y_reset w) 0 (oct m 1)) (oct m 8 - 1) (fst D6) (fst S6) (proto46 (oct m 9)) (word m 4) (fr4_more m 0) 0 seg' outs
           /\ ends 58 [128; 129] seg' (proto46 (oct m 9)) 0 pr (snd D6) (snd S6)
           /\ segment46 (y_sum w = CS_PARTIAL) (Some (snd D6, snd S6)) (fst D4) (fst S4) (fst D6) (fst S6) (oct m 9) (skipn up m) seg'
           /\ (pr = UDP -> word m (up + 6) = 0 -> length outs = 1%nat -> ok6 (fst D6) (fst S6) 17 seg')
    | Untranslated x => (x = XIcmp J46_TTL E_TTL 0 /\ oct m 8 <= 1)
        \/ (x = XIcmp J46_SRC_ROUTE E_SRC_ROUTE 0 /\ exists o, at_opt m up 20 o /\ source_route m o /\ unexpired m o)
        \/ (exists i, x = XIcmp J_PKT_TOO_BIG E_FRAG_NEEDED i /\ df_set m 0 /\ (y_mtu w < 4294967296 -> i = y_mtu w - 20)
            /\ y_mtu w < 48 + Z.of_nat (length m - up) /\ (~ fr4_more m 0 -> y_mtu w < 40 + Z.of_nat (length m - up)))
        \/ (x = XDrop J46_BAD_MTU /\ Z.min (y_mtu w) (y_lim w) < 1280)
    | _ => False
    end.
Proof.
  intros g better n w s m lin up pay pr S6 S4 D4 R Ty P6 W F L PK FP TK DO UP OPT LEN Hs Ho Hp Ha.
  destruct (C62_accepts m lin _ up pay L PK) as (mt & l & G & <- & <-).
  destruct (fields4 true m lin mt l pr D4 S4 F L G FP DO TK) as (k & Ek & Hf & Fl & _).
  pose proof TK as (TS & TD & TE). destruct (ends_pr 1 _ _ _ _ _ _ _ ltac:(discriminate) TE) as (No & Np & Nid). destruct (ends_u16 _ _ _ _ _ _ _ _ F TE) as [U1 U2].
  pose proof PK as (L20 & _).
  assert (UD : is_u32 (fst D4)).
  { rewrite TS. unfold field, is_u32. change (2^32) with (256 ^ 4). pose proof (be_of_bound (firstn 4 (skipn 12 m))) as X. rewrite firstn_length, skipn_length, Nat.min_l in X by lia. apply X. apply firstn_u8. apply skipn_u8. exact F. }
  destruct (C25_delivery_partial g n n true Continue s k pr S6 S4 D4 R P6 Hf Fl UD Hs Ho Hp Ha) as (a6 & s' & evs & E6 & Hc).
  destruct (core_back _ _ _ _ _ _ _ _ _ _ _ _ _ Hf Fl Hc) as (v & Ev & Es).
  set (ot := Out (a6, match pr with ICMP => snd S6 | _ => snd D4 end) S6) in *.
  assert (T6 : typed6 S6). { destruct Hs as (x & j & se & b & _ & Hb & B6 & B4 & _). apply (Ty pr S6 S4 (b_static b)). exists (s_bib se), b. auto. }
  assert (UA : is_u128 a6). { destruct P6 as (Wt & fo & P). destruct (C01_rfc6052_roundtrip _ _ _ Wt P UD) as (r & Er & Ur & _). congruence. }
  assert (NE : oct m 9 = 1 -> ~ icmp4_error_type (oct m (l4off mt))).
  { intros E. destruct TE as [(X & _)|[(X & _)|(_ & T & _)]]; [lia|lia|]. unfold icmp4_error_type. destruct T as [<-|[<-|[]]]; cbn; lia. }
  assert (P58 : oct m 9 <> 58) by (destruct TE as [(-> & _)|[(-> & _)|(-> & _)]]; discriminate).
  assert (NX : error4 m mt = false) by (apply (a_err_false m lin l mt (oct m 9) (parse_view4 true m lin mt l L G) NE)).
  assert (UP2 : is_u16 (snd (o_src ot))) by (cbn [ot o_src snd]; destruct pr; [exact U1|exact U1|exact (proj2 T6)|exact U1]).
  set (e := env46_of w false (y_sum w) (fst (o_src ot)) ot).
  assert (EE : y_src e = a6 /\ y_dst e = fst S6 /\ y_ports e = Some (snd (o_src ot), snd S6)).
  { unfold e, env46_of. cbn [y_src y_dst y_ports]. cbn [ot o_src o_dst fst] in UP2 |- *. rewrite (u128_typed _ UA), (u128_typed _ (proj1 T6)), (u16_typed _ UP2), (u16_typed _ (proj2 T6)). auto. }
  destruct EE as (EE1 & EE2 & EE3).
  pose proof (C75_partial e true m lin mt l F L G (env46_of_ok _ _ _ _ _ _ W)) as X. cbv zeta in X. rewrite skipn_length in X. rewrite FP in X.
  specialize (X P58 NE (fun a _ => DO a) UP OPT ltac:(lia)).
  unfold core4. rewrite G, Ek. cbn [bind]. rewrite Ev, Es. cbn [bind]. unfold step4_46, generate_saddr6_nat64. rewrite NX, andb_false_r. fold e.
  exists a6. rewrite EE1, EE2, EE3 in X. cbn [ot o_src snd fst] in X |- *.
  destruct (xlat46 e l m mt) as [outs|j|j rr i|]; [| | |destruct X]; eexists _, s', evs; (split; [exact E6|]); (split; [reflexivity|]).
  - destruct X as (X1 & X2 & X3 & X4 & X5 & seg' & X6 & X7 & _). cbn [e y_hairpin env46_of] in X1, X6. split; [exact (X1 eq_refl)|]. split; [exact X3|]. split; [exact X2|]. split; [exact X4|]. split; [exact X5|].
    destruct (X7 eq_refl) as [X8 X9]. exists seg'. split; [exact X6|]. split; [|split; [rewrite TS, TD; exact X8|]].
    + apply (ends_back _ _ _ _ _ _ _ _ _ _ _ _ _ _ TE) with (2 := X8). intros ->. reflexivity.
    + intros -> W0 LO. assert (P17 : oct m 9 = 17) by (destruct TE as [(_ & Y & _)|[(Y & _)|(_ & _ & Y & _)]]; congruence). apply X9; [exact P17| |exact LO]. rewrite word_skipn. exact W0.
  - destruct X as [(_ & P & X)|[(-> & X)|(_ & _ & _ & X & _)]]; [|right; right; right; auto|discriminate]. exfalso. specialize (X (if oct m (l4off mt) =? 8 then 128 else 129) 0). apply X.
    rewrite oct_skipn, Nat.add_0_r. destruct TE as [(Y & _)|[(Y & _)|(_ & T & _)]]; [lia|lia|].
    pose proof (oct_u8 (skipn (l4off mt) m) 1 (skipn_u8 _ _ F)) as U. unfold is_u8 in U.
    destruct T as [<-|[<-|[]]]; cbn [Z.eqb Pos.eqb]; unfold becomes, rules46; [exists 0, 255, (Some 0)|exists 0, 255, (Some 0)]; cbn; auto with zarith.
  - destruct X as [(-> & -> & -> & _ & X)|[(-> & -> & -> & X)|(-> & -> & X1 & X2 & X3 & X4)]]; [left; auto|right; left; auto|right; right; left].
    exists i. cbn [failed]. auto 10.
Qed.
Print Assumptions C86_back_partial.
