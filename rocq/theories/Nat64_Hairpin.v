(** Claim C25 for hairpinned packets: between two IPv6 nodes that both go through pool4. *)
Require Import Verif.Base Verif.Addr_Model Verif.Addr_Spec Verif.Addr_Proofs Verif.Addr_Properties Verif.Rtrie_Model Verif.Pool4_Model Verif.Fsm_Model Verif.Bib_Model
  Verif.Rbtree_Model Verif.Rbtree_Properties Verif.Bib_Inv Verif.Bib_Steps Verif.Bib_Fate Verif.Bib_Find Verif.Bib_Add Verif.Bib_Ops Verif.Bib_Hist Verif.Bib_Spec Verif.Bib_Properties Verif.Bib_Filter
  Verif.Nat64_Model Verif.Nat64_Spec Verif.Nat64_Properties Verif.Nat64_Errors.
Local Ltac Zify.zify_post_hook ::= idtac.

(** A packet of a session: nothing but the session's time changes. *)
Lemma add6_known : forall c p t d out s6 d6 d4 k x now al, reachable p t -> p <> TCP -> offers d out -> has_session t s6 k x (far_end p d4 k) -> ~ withdrawn d k -> ~ In false al ->
  exists e t' evs, bib_add6 c p t d s6 d6 d4 now al = Ok (OK, Session e, t', evs) /\ e_src6 e = s6 /\ e_src4 e = k /\ (forall a b y z, has_session t a b y z -> has_session t' a b y z).
Proof.
  intros c p t d out s6 d6 d4 k x now al R Np O Hs Nw Ha. destruct (reach_inv p t R) as [I _].
  assert (Hh : exists st, has t s6 k st) by (destruct Hs as (j & s & b & _ & Hb & E6 & E4 & _); exists (b_static b), (s_bib s), b; auto). destruct Hh as (st & Hh).
  destruct (bib_add6_ok c p t d s6 d6 d4 now al I (ex_intro _ out O) Np) as [(E & F)|(e & en & t' & evs & f & t2 & E & F & (devs & Ed & _) & I2 & _ & _ & Hm)]; [contradiction|].
  destruct Hs as (j & s & b & Hj & Hb & E6 & E4 & Ex & E2).
  assert (Old : e = OK /\ f_bdl f = [] /\ f_t f = t /\ f_sess f = Some j).
  { destruct e as [|z].
    2:{ exfalso. inversion F as [| | | |y Pr Exh Ey N]. apply N. exists (s_bib s). unfold key6. rewrite Hb. split; [|exact E6]. rewrite (p_t4 _ _ _ _ _ _ Pr). apply drop_in. split; [apply in_tree4; eauto|].
      intros C. destruct (p_bdl _ _ _ _ _ _ Pr) as [X|(bid & b0 & X & Hb0 & H6 & H2)]; rewrite X in C; [destruct C|]. destruct C as [->|[]]. assert (b0 = b) by congruence. subst b0.
      unfold issue216_needed in H2. apply andb_true_iff in H2. destruct H2 as [H2 H3]. apply negb_true_iff in H3. apply Nw. rewrite <- E4. split; assumption. }
    split; [reflexivity|].
    destruct (f_sess f) as [sid|] eqn:Ef.
    - destruct Hm as (s0 & b0 & L & Eft & Eb & Hb0 & _). split; [exact Eb|]. split; [exact Eft|]. f_equal.
      inversion F as [bid b1 X1 X2 X3 X4 Hb1 Hi H6 H2 En Hit|bid0 sid' Hp X1|Pr X1 X2|y Pr X1 St X2 X3|]; [|congruence|congruence|congruence].
      rewrite Ef in Hit. destruct Hit as [Hit Kk]. apply nth_error_In in Hit. apply (ibs _ _ I _ _ Hb1) in Hit. destruct Hit as (s1 & Hs1 & Esb). cbn [w_src6] in H6.
      destruct (has_unique p t R _ _ _ _ _ _ (ex_intro _ bid (ex_intro _ b1 (conj Hb1 (conj H6 (conj eq_refl eq_refl)))) : has t s6 (b_src4 b1) (b_static b1)) Hh (or_introl eq_refl)) as (_ & K4 & _).
      assert (bid = s_bib s) by (apply (bib_unique4 t _ _ _ _ I Hb1 Hb); congruence). subst bid.
      apply (proj1 (proj2 (proj2 (C16_sessions p t R))) sid j s1 s Hs1 Hj); [congruence|]. unfold keys in Kk. rewrite Hs1, En in Kk. rewrite Kk, E2. rewrite K4. destruct p; reflexivity.
    - exfalso. destruct (f_bib f) as [bid|] eqn:Efb.
      + inversion F as [bid0 b1 X1 X2 X3 X4 Hb1 Hi H6 H2 En Hit|bid0 sid' Hp X1|Pr X1 X2|y Pr X1 St X2 X3|]; [|congruence|congruence|destruct St; congruence].
        rewrite Ef in Hit. cbn [hit] in Hit. cbn [w_src6] in H6.
        destruct (has_unique p t R _ _ _ _ _ _ (ex_intro _ bid0 (ex_intro _ b1 (conj Hb1 (conj H6 (conj eq_refl eq_refl)))) : has t s6 (b_src4 b1) (b_static b1)) Hh (or_introl eq_refl)) as (_ & K4 & _).
        assert (bid0 = s_bib s) by (apply (bib_unique4 t _ _ _ _ I Hb1 Hb); congruence). subst bid0. assert (b1 = b) by congruence. subst b1.
        assert (Hjb : In j (b_sess b)) by (apply (ibs _ _ I _ _ Hb); eauto). destruct Hit as (B1 & B2 & B3). rewrite <- (firstn_skipn (f_ns f) (b_sess b)) in Hjb. apply in_app_or in Hjb.
        assert (Ke : keys t j = w_dst4 (f_new f)) by (unfold keys; rewrite Hj, E2, En, K4; destruct p; reflexivity).
        destruct Hjb as [Hjb|Hjb]; [apply B2 in Hjb|apply B3 in Hjb]; rewrite Ke in Hjb; exact (lt_ta_irr _ Hjb).
      + destruct (found_new _ _ _ _ _ _ _ I F O Ef Efb) as (_ & _ & _ & Wd & _). exact (Nw (Wd _ _ Hh)). }
  destruct Old as (-> & Eb & Et & Ef). rewrite Ef in Hm. destruct Hm as (s0 & b0 & L & _ & _ & Hb0 & K & _ & ->). destruct L as [L _]. assert (s0 = s) by congruence. subst s0. assert (b0 = b) by congruence. subst b0.
  rewrite Eb in Ed. cbn [commit_delete_list] in Ed. injection Ed as <- _. eexists _, t2, evs. split; [exact E|]. split; [exact E6|]. split; [exact E4|].
  intros a0 b0 y z (i & si & bi & Hi & Hbi & X). destruct (Z.eq_dec i j) as [->|N].
  - exists j, (set_timer s now T_EST), bi. rewrite (k_sess _ _ _ _ K), Z.eqb_refl, (k_bibs _ _ _ _ K). assert (si = s) by congruence. subst si. auto.
  - exists i, si, bi. rewrite (k_sess _ _ _ _ K), (k_bibs _ _ _ _ K). destruct (Z.eqb_spec i j); [contradiction|]. auto.
Qed.

(** [SA] and [SB] are the addresses of the two nodes in pool4; the packet goes from
    [SA] to [SB].  While both sessions exist the answer goes back the same way. *)
Theorem C25_hairpin_partial : forall g m m2 s pr A6 D6 B6 SA SB a6 k2 d out,
  pr <> TCP -> reachable_db s -> pool6_ok g -> g_drop_info g = false -> is_u32 (fst SA) -> is_u32 (fst SB) -> (pr = ICMP -> snd SA = snd SB /\ snd D6 = snd A6) ->
  (* B got it as coming from [a6], which is SA's, after A sent it to [D6], which is SB's *)
  rfc6052_4to6 (g_pool6 g) (fst SA) = Some a6 -> rfc6052_4to6 (g_pool6 g) (fst SB) = Some (fst D6) -> (pr = UDP -> snd D6 = snd SB) ->
  (exists x, has_session (get_table s pr) A6 SA x SB) -> (exists y, has_session (get_table s pr) B6 SB y SA) ->
  (* and this is its answer *)
  k_fam k2 = V6 -> flow k2 = Some (pr, B6, (a6, match pr with ICMP => snd B6 | _ => snd SA end)) ->
  prefix6_contains (g_pool6 g) (fst B6) = false ->
  mask_domain_find (g_pool4 g) pr (n_mark m) (n_hash m) (n_eph m) (n_route m) (n_kro m) = Ok (Domain d) -> offers d out -> ~ withdrawn d SB ->
  pool4db_contains (g_pool4 g) (n_ifas m) pr (fst SA) (snd SA) = Ok true -> pool4db_contains (g_pool4 g) (n_ifas m2) pr (fst SA) (snd SA) = Ok true ->
  ~ In false (n_al m) -> ~ In false (n_al m2) ->
  exists s' evs, core_common g m m2 true Continue Continue s k2 = Ok (Sent V6 (Out D6 A6), s', evs).
Proof.
  intros g m m2 s pr A6 D6 B6 SA SB a6 k2 d out Np R P6 Gi UA UB' Hi EA EB Hu (x & HA) (y & HB) Hf Fl Nb Em O Nw Hp1 Hp2 Ha1 Ha2.
  assert (No : pr <> OTHER) by (intros ->; unfold flow in Fl; destruct (k_l4 k2); try discriminate; apply icmp4_cases in Fl; destruct Fl; discriminate).
  destruct P6 as (W & fo & P). pose proof (C01_rfc6052_roundtrip _ _ _ W P UA) as (r & Er & Ur & Ir & Rr). assert (r = a6) by congruence. subst r.
  assert (Hin : prefix6_contains (g_pool6 g) a6 = true).
  { destruct (prefix6_contains (g_pool6 g) a6) eqn:X; [reflexivity|]. unfold rfc6052_6to4 in Rr. rewrite X in Rr. discriminate. }
  assert (Hsrc : k_src k2 = fst B6 /\ k_dst k2 = a6).
  { unfold flow in Fl. destruct (k_l4 k2); try discriminate; try (injection Fl as <- <- <-; auto). apply icmp4_cases in Fl. destruct Fl as [Fl _]. injection Fl as <- <- <-. auto. }
  destruct Hsrc as [Hk1 Hk2]. unfold core_common. rewrite (flow_view _ _ _ _ Fl), Hf, Hk1, Hk2.
  set (d4 := (fst SA, match pr with ICMP => snd B6 | _ => snd SA end)).
  assert (Fe : far_end pr d4 SB = SA) by (destruct pr; try congruence; cbn [far_end d4 fst snd]; [destruct SA; reflexivity|rewrite <- (proj1 (Hi eq_refl)); destruct SA; reflexivity]).
  pose proof (reachable_table _ _ R No) as Rt. rewrite <- Fe in HB.
  destruct (add6_known (g_cfg g) pr _ d out B6 (a6, match pr with ICMP => snd B6 | _ => snd SA end) d4 SB y (n_now m) (n_al m) Rt Np O HB Nw Ha1) as (e & t' & evs & Ea & E6 & E4 & Kp).
  assert (R' : reachable pr t').
  { apply (reachable_app pr (get_table s pr) [(g_cfg g, OAdd6 d B6 (a6, match pr with ICMP => snd B6 | _ => snd SA end) d4 (n_now m) (n_al m))] t' (evs ++ []) Rt); [constructor; [exists out; exact O|constructor]|].
    cbn [run step]. destruct pr; [congruence| | |congruence]; rewrite Ea; reflexivity. }
  apply Kp in HA.
  match goal with |- context [View V6 (fst B6) a6 pr false ?gg B6 _ pr] => set (seg := gg) end.
  assert (S1 : steps23 g m s (View V6 (fst B6) a6 pr false seg B6 (a6, match pr with ICMP => snd B6 | _ => snd SA end) pr) = Ok (Sent V4 (Out SB SA), set_table s pr t', evs)).
  { assert (E1 : ipv6_simple g m s (View V6 (fst B6) a6 pr false seg B6 (a6, match pr with ICMP => snd B6 | _ => snd SA end) pr) = Ok (Continue, Session e, set_table s pr t', evs)).
    { unfold ipv6_simple, xlat_dst_6to4. cbn [v_dst v_pr v_src fst snd]. rewrite Rr, Em. cbn [bind]. fold d4. rewrite Ea. reflexivity. }
    unfold steps23, filtering_and_updating, fu_admit. cbn [v_fam v_saddr v_daddr v_err]. rewrite Nb, Hin. cbn [negb bind]. unfold fu_update. cbn [v_l4 v_fam]. rewrite Gi.
    assert (E2 : match pr, V6 with UDP, V6 | ICMP, V6 => True | _, _ => False end) by (destruct pr; try exact Logic.I; congruence).
    destruct pr; try destruct E2; rewrite E1; cbn [bind]; unfold compute_out_tuple; cbn [find_bib bind v_fam v_dst v_pr fst snd]; rewrite Rr; cbn [flip]; rewrite E4; [|rewrite <- (proj1 (Hi eq_refl))]; rewrite <- (surjective_pairing SA); reflexivity. }
  rewrite S1. cbn [bind]. unfold is_hairpin. cbn [v_fam v_pr o_dst]. rewrite Hp1. cbn [bind]. unfold hairpin_view. cbn [v_fam flip v_l4 v_err v_seg v_pr o_src o_dst].
  match goal with |- context [View V4 (fst SB) (fst SA) pr false ?gg SB SA pr] => set (seg2 := gg) end.
  assert (T : get_table (set_table s pr t') pr = t') by (destruct pr; try reflexivity; congruence).
  assert (S2 : exists s'' evs', steps23 g m2 (set_table s pr t') (View V4 (fst SB) (fst SA) pr false seg2 SB SA pr) = Ok (Sent V6 (Out D6 A6), s'', evs')).
  { destruct (C19_session (g_cfg g) pr t' A6 SA x SB (fst D6, snd SB) (n_now m2) (n_al m2) R' HA Ha2) as (en & t2 & Eb & e2 & -> & F1 & F2 & F3 & F4).
    assert (E1 : ipv4_simple g m2 (set_table s pr t') (View V4 (fst SB) (fst SA) pr false seg2 SB SA pr) = Ok (Continue, Session e2, set_table (set_table s pr t') pr t2, [])).
    { unfold ipv4_simple, xlat_src_4to6. cbn [v_dst v_pr v_src]. rewrite EB, T, Eb. reflexivity. }
    unfold steps23, filtering_and_updating, fu_admit. cbn [v_fam v_pr v_dst v_err]. rewrite Hp2. cbn [negb bind]. unfold fu_update. cbn [v_l4 v_fam].
    assert (Eo : D6 = (fst D6, match pr with ICMP => snd A6 | _ => snd SB end)).
    { rewrite (surjective_pairing D6) at 1. f_equal. destruct pr; try congruence; [exact (Hu eq_refl)|exact (proj2 (Hi eq_refl))]. }
    exists (set_table (set_table s pr t') pr t2), [].
    destruct pr; try congruence; rewrite E1; cbn [bind]; unfold compute_out_tuple; cbn [find_bib bind v_fam v_src v_pr fst snd]; rewrite EB; cbn [flip]; rewrite F1, <- Eo; reflexivity. }
  destruct S2 as (s'' & evs' & ->). cbn [bind]. eauto.
Qed.
Print Assumptions C25_hairpin_partial.

Lemma add4_keeps : forall c p t s4 d4 d6 now al en t', reachable p t -> bib_add4 c p t s4 d4 d6 now al = Ok (OK, en, t') ->
  (exists e, en = Session e /\ e_src4 e = s4 /\ has_session t' (e_src6 e) s4 (e_dst6 e) d4) /\ (forall a b y z, has_session t a b y z -> has_session t' a b y z).
Proof.
  intros c p t s4 d4 d6 now al en t' R E. destruct (reach_inv p t R) as [I _].
  destruct (bib_add4_ok c p t s4 d4 d6 now al I) as (e1 & en1 & t1 & E1 & I' & _ & _ & H). rewrite E in E1. injection E1 as <- <- <-.
  destruct H as [(X & _)|[(X & _)|(bid & b & Hb & Hi & E4 & [(sid & s & [L _] & Eb & Ed & _ & K & _ & ->)|(_ & [(_ & X & _)|(Al & _ & Lk)])])]]; try discriminate.
  - split.
    + eexists. split; [reflexivity|]. split; [exact E4|]. exists sid, (set_timer s now T_EST), b. rewrite (k_sess _ _ _ _ K), Z.eqb_refl, (k_bibs _ _ _ _ K). cbn. rewrite Eb. auto 10.
    + intros a0 b0 y z (i & si & bi & Hsi & Hbi & X). destruct (Z.eq_dec i sid) as [->|N].
      * exists sid, (set_timer s now T_EST), bi. rewrite (k_sess _ _ _ _ K), Z.eqb_refl, (k_bibs _ _ _ _ K). assert (si = s) by congruence. subst si. auto.
      * exists i, si, bi. rewrite (k_sess _ _ _ _ K), (k_bibs _ _ _ _ K). destruct (Z.eqb_spec i sid); [contradiction|]. auto.
  - destruct (linked4_session _ _ _ _ _ _ _ _ Hb Lk) as (H1 & H2 & _). split; [|exact H2]. destruct Lk as (sid & s & b' & A & -> & Es & -> & _). eexists. split; [reflexivity|].
    pose proof (a_b _ _ _ _ _ A) as Ab. rewrite Es, Hb in Ab. destruct Ab as (_ & B6 & B4 & _). cbn. rewrite B4, B6. split; [exact E4|]. rewrite <- E4. exact H1.
Qed.

(** The packet itself leaves those two sessions. *)
Theorem C25_hairpin_there : forall g n n2 nm x1 x2 s k pr A6 D6 o s1 evs, pr <> TCP ->
  reachable_db s -> usable g n -> k_fam k = V6 -> flow k = Some (pr, A6, D6) ->
  core_common g n n2 nm x1 x2 s k = Ok (Sent V6 o, s1, evs) ->
  exists SA SB a6, rfc6052_4to6 (g_pool6 g) (fst SA) = Some a6 /\ rfc6052_6to4 (g_pool6 g) (fst D6) = Some (fst SB) /\ (pr = UDP -> snd D6 = snd SB) /\ (pr = ICMP -> snd SA = snd SB /\ snd D6 = snd A6) /\
    o_src o = (a6, match pr with ICMP => snd (o_dst o) | _ => snd SA end) /\
    (exists x, has_session (get_table s1 pr) A6 SA x SB) /\ (exists y, has_session (get_table s1 pr) (o_dst o) SB y SA).
Proof.
  intros g n n2 nm x1 x2 s k pr A6 D6 o s1 evs Np R Us Hf Fl H. unfold core_common in H. rewrite (flow_view _ _ _ _ Fl), Hf in H.
  assert (No : pr <> OTHER) by (intros ->; unfold flow in Fl; destruct (k_l4 k); try discriminate; apply icmp4_cases in Fl; destruct Fl; discriminate).
  assert (Hid : pr = ICMP -> snd D6 = snd A6).
  { intros ->. unfold flow in Fl. destruct (k_l4 k); try discriminate. apply icmp4_cases in Fl. destruct Fl as [Fl _]. injection Fl as <- <-. reflexivity. }
  match type of H with context [View V6 ?a ?b pr false ?gg A6 D6 pr] => set (v := View V6 a b pr false gg A6 D6 pr) in H end.
  unbind H r E. destruct r as [[o1 s2] evs1]. destruct o1 as [f1 o1|]; [|discriminate]. destruct x1; try discriminate.
  assert (F1 : exists a4 t1 e, rfc6052_6to4 (g_pool6 g) (fst D6) = Some a4 /\ o1 = Out (e_src4 e) (far_end pr (a4, snd D6) (e_src4 e)) /\ f1 = V4 /\ s2 = set_table s pr t1 /\ reachable pr t1 /\
    has_session t1 A6 (e_src4 e) (e_dst6 e) (far_end pr (a4, snd D6) (e_src4 e))).
  { unfold steps23 in E. unbind E r E1. destruct r as [[[x en] s3] evs3]. destruct x; try discriminate. unbind E y E2. destruct y as [[] [u|]]; try discriminate. injection E as <- -> -> ->.
    unfold filtering_and_updating in E1. unbind E1 a Ea. destruct a as [a|].
    { exfalso. unfold fu_admit in Ea. cbn [v v_fam v_saddr v_daddr v_err] in Ea. destruct (prefix6_contains _ _); [|destruct (negb _)]; congruence. }
    assert (E1' : ipv6_simple g n s v = Ok (Continue, en, s2, evs1)).
    { unfold fu_update in E1. cbn [v v_l4 v_fam] in E1. fold v in E1. destruct pr; try congruence; [exact E1|]. destruct (g_drop_info g); [discriminate|exact E1]. }
    unfold ipv6_simple, xlat_dst_6to4 in E1'. cbn [v v_dst v_pr v_src] in E1'. unfold compute_out_tuple in E2. unbind E2 b Eb. destruct b as [[b6 b4]|]; [|discriminate]. cbn [v v_fam v_dst v_pr] in E2.
    destruct (rfc6052_6to4 (g_pool6 g) (fst D6)) as [a4|]; [|discriminate]. injection E2 as <-. unbind E1' f Ef. destruct f as [d|]; [|discriminate]. destruct (Us _ _ Ef) as (out & O). pose proof (reachable_table _ _ R No) as Rt.
    destruct (C18_udp_icmp (g_cfg g) pr _ d out A6 D6 (a4, snd D6) (n_now n) (n_al n) Rt Np O) as (e1 & en1 & t1 & evs2 & Eq & Hm).
    assert (R' : reachable pr t1).
    { apply (reachable_app pr (get_table s pr) [(g_cfg g, OAdd6 d A6 D6 (a4, snd D6) (n_now n) (n_al n))] t1 (evs2 ++ []) Rt); [constructor; [exists out; exact O|constructor]|].
      cbn [run step]. destruct pr; [congruence| | |congruence]; rewrite Eq; reflexivity. }
    rewrite Eq in E1'. cbn [bind] in E1'. destruct e1 as [|z]; [|discriminate]. injection E1' as -> <- ->. destruct Hm as (kk & st & e & -> & Y1 & Y2 & Y3 & _ & _ & _ & Y & _). cbn [find_bib] in Eb. injection Eb as _ <-.
    exists a4, t1, e. split; [reflexivity|]. split; [f_equal; destruct pr; try congruence; reflexivity|]. split; [reflexivity|]. split; [reflexivity|]. split; [exact R'|]. rewrite Y2. rewrite Y3 in Y. exact Y. }
  destruct F1 as (a4 & t1 & e & Ex & -> & -> & -> & R1 & HA). clear E. set (SA := e_src4 e) in *. set (SB := far_end pr (a4, snd D6) SA) in *.
  unbind H h Eh. destruct h; [|discriminate]. destruct nm; [|discriminate]. unbind H r E. destruct r as [[o2 s3] evs3]. destruct o2 as [f2 o2|]; [|destruct x2; discriminate]. destruct x2; try discriminate. injection H as -> -> -> _.
  unfold hairpin_view in E. cbn [v v_fam flip v_l4 v_err v_seg v_pr o_src o_dst] in E. match type of E with context [View V4 ?a ?b pr false ?gg SA SB pr] => set (v2 := View V4 a b pr false gg SA SB pr) in E end.
  unfold steps23 in E. unbind E r E1. destruct r as [[[x en] s4] evs4]. destruct x; try discriminate. unbind E y E2. destruct y as [[] [u|]]; try discriminate. injection E as -> -> _.
  unfold filtering_and_updating in E1. unbind E1 a Ea. destruct a as [a|].
  { exfalso. unfold fu_admit in Ea. cbn [v2 v_fam v_pr v_dst v_err] in Ea. unbind Ea bb Eb. destruct (negb bb); congruence. }
  assert (E1' : ipv4_simple g n2 (set_table s pr t1) v2 = Ok (Continue, en, s1, evs4)) by (unfold fu_update in E1; cbn [v2 v_l4 v_fam] in E1; fold v2 in E1; destruct pr; try congruence; exact E1).
  unfold ipv4_simple, xlat_src_4to6 in E1'. cbn [v2 v_src v_dst v_pr] in E1'. unfold compute_out_tuple in E2. unbind E2 b Eb. destruct b as [[b6 b4]|]; [|discriminate]. cbn [v2 v_fam v_src v_pr] in E2.
  destruct (rfc6052_4to6 (g_pool6 g) (fst SA)) as [a6|] eqn:Ea6; [|discriminate]. injection E2 as <-. cbn [o_src o_dst].
  assert (T : forall s0 u0, get_table (set_table s0 pr u0) pr = u0) by (intros; destruct pr; try reflexivity; congruence). rewrite T in E1'. unbind E1' r Er. destruct r as [[e1 en1] t2]. destruct e1 as [|z]; [|destruct z; discriminate].
  injection E1' as -> <- _. destruct (add4_keeps _ _ _ _ _ _ _ _ _ _ R1 Er) as ((e2 & -> & G1 & G2) & Kp). cbn [find_bib] in Eb. injection Eb as <- _.
  exists SA, SB, a6. rewrite T. split; [exact Ea6|]. split; [rewrite Ex; unfold SB; destruct pr; reflexivity|]. split; [intros ->; reflexivity|]. split; [intros ->; split; [reflexivity|auto]|]. split; [reflexivity|].
  split; [exists (e_dst6 e); apply Kp; exact HA|exists (e_dst6 e2); exact G2].
Qed.
Print Assumptions C25_hairpin_there.
