(** * C92: the flags in a segment's octets are what drives the state of its connection *)
Require Import Verif.Base Verif.Addr_Model Verif.Addr_Spec Verif.Addr_Properties Verif.Rtrie_Model Verif.Pool4_Model Verif.Fsm_Model Verif.Fsm_Spec Verif.Fsm_Properties Verif.Bib_Model
  Verif.Rbtree_Model Verif.Rbtree_Properties Verif.Bib_Inv Verif.Bib_Steps Verif.Bib_Fate Verif.Bib_Find Verif.Bib_Add Verif.Bib_Ops Verif.Bib_Hist Verif.Bib_Spec Verif.Bib_Properties Verif.Bib_Filter
  Verif.Nat64_Model Verif.Nat64_Spec Verif.Nat64_Properties.
Require Import Verif.Csum_Model Verif.Csum_Spec Verif.Csum_Proofs Verif.Csum_Properties Verif.Pkt_Model Verif.Pkt_Spec Verif.Pkt_Proofs Verif.Pkt_Properties
  Verif.Hdr_Model Verif.Hdr_Spec Verif.Hdr_Proofs Verif.Hdr_Properties Verif.Ext_Model Verif.Ext_Spec Verif.Xlat_Model Verif.Xlat_Spec Verif.Xlat_Proofs Verif.Xlat_Proofs46
  Verif.Xlat_Properties Verif.Icmperr_Spec Verif.Icmperr_Properties Verif.Trip_Spec Verif.Trip_Proofs Verif.E2e_Model Verif.E2e_Spec Verif.E2e_Proofs Verif.E2e_Out Verif.E2e_Back.
Local Ltac Zify.zify_post_hook ::= idtac.

(** ** What is claimed *)
(** RFC 9293 section 3.1: of the flags in the 14th octet of the header FIN is the
    lowest, then SYN, then RST. *)
Definition flag (m : list Z) (up : nat) (k : Z) : Prop := (oct m (up + 13) / 2 ^ k) mod 2 = 1.
Definition FIN := 0. Definition SYN := 1. Definition RST := 2.
Definition flags_of (f : fam) (m : list Z) (up : nat) (g : segment) : Prop :=
  sg_fam g = f /\ (syn g <-> flag m up SYN) /\ (fin g <-> flag m up FIN) /\ (rst g <-> flag m up RST).
(** The connection between the node at [S6], which has [S4], and [D4] is in state [q],
    on the list of timer [k] since [time]; [st]: an unanswered SYN is kept with it. *)
Definition connection (t : tb) (S6 S4 D4 : ta) (q : pstate) (k : timer) (time : Z) (st : bool) : Prop :=
  exists j s b, sess t j = Some s /\ bibs t (s_bib s) = Some b /\ b_src6 b = S6 /\ b_src4 b = S4 /\ s_dst4 s = D4
    /\ s_state s = code q /\ s_exp s = k /\ s_time s = time /\ (st = true <-> s_stored s <> None).
(** The timer a rule asks for, and since when *)
Definition timer_of (l : life) (k : timer) : timer := match l with SetEst => T_EST | SetTrans => T_TRANS | Keep => k end.
Definition since (l : life) (now time : Z) : Z := match l with Keep => time | _ => now end.
(** What the segment does to the connection: a rule of RFC 6146 section 3.5.2.2. The
    kept SYN goes when the answer comes. *)
Definition driven (hr : bool) (g : segment) (now : Z) (S6 S4 D4 : ta) (q : pstate) (k : timer) (time : Z) (st : bool) (t' : tb) : Prop :=
  exists q' l, rfc hr q g q' l /\ connection t' S6 S4 D4 q' (timer_of l k) (since l now time) (st && negb (match q, q' with V4Init, Established => true | _, _ => false end)).
(** The other thing that may become of it: an IPv4 node repeats its SYN before the
    first was answered. *)
Definition repeated (g : segment) (q : pstate) (st : bool) : Prop := q = V4Init /\ from4 g /\ st = true.

(** ** Proofs *)
Lemma same_code q q' : code q = code q' -> q = q'.
Proof. destruct q, q'; cbn; congruence. Qed.
Lemma fed_driven : forall c t t' g now j s b v en S6 S4 D4 q k time st,
  sess t j = Some s -> bibs t (s_bib s) = Some b -> b_src6 b = S6 -> b_src4 b = S4 -> s_dst4 s = D4 -> s_state s = code q -> s_exp s = k -> s_time s = time -> (st = true <-> s_stored s <> None) ->
  fed c t t' g now j v en ->
  (v = VDrop /\ repeated g q st /\ connection t' S6 S4 D4 q k time st) \/
  ((v = VContinue /\ exists e, en = Session e) /\ ~ repeated g q st /\ driven (c_handle_rst c) g now S6 S4 D4 q k time st t').
Proof.
  intros c t t' g now j s b v en S6 S4 D4 q k time st Hs Hb E6 E4 Ed Eq Ek Et Es (s1 & b1 & s1' & Hs1 & Hb1 & _ & H).
  assert (s1 = s) by congruence. subst s1. assert (b1 = b) by congruence. subst b1. cbv zeta in H. destruct H as (Fd & Nr & _ & _ & _ & Hv).
  assert (Est : e_stored (entry_of c TCP b s) = st).
  { unfold entry_of. cbn [e_stored]. destruct (s_stored s), st; try reflexivity; exfalso; intuition congruence. }
  pose proof (C20_transition (c_handle_rst c) q g (entry_of c TCP b s) ltac:(exact Eq)) as X.
  destruct (tcp_state_machine (c_handle_rst c) g (entry_of c TCP b s)) as [e f] eqn:Em. cbn [fst snd] in *. destruct X as [Sm X].
  assert (Tm : e_time e = time) by (destruct Sm as (_ & _ & _ & _ & _ & Z1 & _); cbn in Z1; congruence).
  assert (C : forall q' kk tt x, e_state e = code q' -> Bib_Fate.kept t t' j (Bib_Fate.after s e tt kk x) -> forall st', (st' = true <-> x <> None) -> connection t' S6 S4 D4 q' kk tt st').
  { intros q' kk tt x Eq' K st' Ex. exists j, (Bib_Fate.after s e tt kk x), b. rewrite (k_sess _ _ _ _ K), Z.eqb_refl, (k_bibs _ _ _ _ K). cbn [Bib_Fate.after s_bib s_dst4 s_state s_exp s_time s_stored]. auto 20. }
  destruct X as [(-> & -> & F4 & E1 & ->)|(q' & l & Lf & Eq' & Ru & Nx & St)].
  - left. destruct Hv as [-> _]. split; [reflexivity|]. rewrite Est in E1. split; [split; auto|]. destruct Fd as [K _]. cbn [entry_of e_stored] in K. rewrite <- Ek. refine (C _ _ _ _ _ _ _ _); [exact Eq| |exact Es].
    change (e_stored (entry_of c TCP b s)) with (match s_stored s with Some _ => true | None => false end) in *. rewrite <- Tm. destruct (s_stored s); exact K.
  - right. rewrite Est in Nx, St.
    assert (Vc : v = VContinue /\ exists e, en = Session e) by (destruct f; try (destruct Hv as [-> ->]; split; [reflexivity|eexists; reflexivity]); discriminate).
    split; [exact Vc|]. split; [exact Nx|]. exists q', l. split; [exact Ru|].
    assert (Sx : (st && negb (match q, q' with V4Init, Established => true | _, _ => false end)) = true <-> (if e_stored e then s_stored s else None) <> None).
    { assert (Y : e_stored e = (st && negb (match q, q' with V4Init, Established => true | _, _ => false end))%bool).
      { destruct St as [Se|(-> & F6 & Fs & ->)].
        - rewrite Se. destruct (match q, q' with V4Init, Established => true | _, _ => false end) eqn:Q; [|rewrite andb_true_r; reflexivity].
          destruct q; try discriminate. destruct q'; try discriminate. clear Q. cbn [negb]. rewrite andb_false_r.
          assert (Hx : from6 g /\ syn g) by (inversion Ru; auto).
          unfold tcp_state_machine in Em. cbn [entry_of e_state] in Em. rewrite Eq in Em. cbn [code Z.eqb Pos.eqb ESTABLISHED V4_INIT] in Em. change (2 =? ESTABLISHED) with false in Em. change (2 =? V4_INIT) with true in Em. cbv iota in Em.
          unfold tcp_v4_init_state in Em. destruct Hx as [Hx1 Hx2]. rewrite Hx1, Hx2 in Em. injection Em as <- _. cbn in Se. congruence.
        - assert (q' = Established) as ->. { inversion Ru as [|? N| | | | | | | | | | | | | | | |]; [reflexivity|]. exfalso. apply N. auto. }
          cbn. rewrite andb_false_r. reflexivity. }
      rewrite <- Y. destruct (e_stored e) eqn:Ee; [|split; [discriminate|congruence]]. split; [intros _|reflexivity].
      symmetry in Y. apply andb_true_iff in Y. apply Es, Y. }
    unfold fate_done in Fd. destruct f; try discriminate; injection Lf as <-; destruct Fd as [K _]; cbn [timer_of since].
    + exact (C _ _ _ _ Eq' K _ Sx).
    + exact (C _ _ _ _ Eq' K _ Sx).
    + rewrite <- Ek, <- Tm. exact (C _ _ _ _ Eq' K _ Sx).
Qed.

Lemma tcp4_driven : forall c t S6 S4 D4 d6 g skb now al q k time st v en t' evs, reachable TCP t -> ~ In false al -> connection t S6 S4 D4 q k time st ->
  bib_add_tcp4 c t S4 D4 d6 g skb now al = Ok (v, en, t', evs) ->
  (v = VDrop /\ repeated g q st /\ connection t' S6 S4 D4 q k time st) \/
  ((v = VContinue /\ exists e, en = Session e) /\ ~ repeated g q st /\ driven (c_handle_rst c) g now S6 S4 D4 q k time st t').
Proof.
  intros c t S6 S4 D4 d6 g skb now al q k time st v en t' evs R Ha (j & s & b & Hs & Hb & E6 & E4 & Ed & Eq & Ek & Et & Es) H. destruct (reach_inv TCP t R) as [I _]. unfold bib_add_tcp4 in H.
  destruct (draw_alloc al) as [a al'] eqn:Ea. destruct (draw_in _ _ _ Ea) as [_ Hd]. destruct a; [|destruct Hd as [Hd|Hd]; [discriminate|contradiction]]. cbn [negb] in H.
  destruct (find4_ok _ _ S4 D4 I) as (ob & os & n & al2 & E & F). rewrite E in H. cbn [bind] in H.
  assert (X : os = Some j).
  { destruct ob as [bid|].
    - destruct F as (b' & Hb' & H4 & E4' & Hh & _). assert (bid = s_bib s) by (apply (bib_unique4 t _ _ _ _ I Hb' Hb); congruence). subst bid. assert (b' = b) by congruence. subst b'.
      destruct os as [sid|].
      + destruct Hh as [Hn Hk]. apply nth_error_In in Hn. apply (ibs _ _ I _ _ Hb) in Hn. destruct Hn as (s' & Hs' & Es'). f_equal. unfold keys in Hk. rewrite Hs' in Hk.
        apply (proj1 (proj2 (proj2 (C16_sessions TCP t R))) sid j s' s Hs' Hs Es'). congruence.
      + exfalso. destruct Hh as (B1 & B2 & B3). assert (Hj : In j (b_sess b)) by (apply (ibs _ _ I _ _ Hb); eauto).
        rewrite <- (firstn_skipn n (b_sess b)) in Hj. apply in_app_or in Hj. destruct Hj as [Hj|Hj]; [apply B2 in Hj|apply B3 in Hj]; unfold keys in Hj; rewrite Hs, Ed in Hj; exact (lt_ta_irr _ Hj).
    - exfalso. destruct F as (_ & _ & F). apply F. apply (taken_used _ _ I). exists S6, (b_static b), (s_bib s), b. auto. }
  subst os. clear F E. assert (L : Bib_Fate.live [] t j s) by (split; [exact Hs|intros []]).
  destruct (feed_ok _ c t g j s now al' I L) as [[Ex _]|(v1 & en1 & t2 & evs2 & Ex & _ & _ & _ & Hf)]; cbv zeta in Ex; rewrite Ex in H; [discriminate|]. injection H as <- <- <- _.
  exact (fed_driven _ _ _ _ _ _ _ _ _ _ _ _ _ _ _ _ _ Hs Hb E6 E4 Ed Eq Ek Et Es Hf).
Qed.

Lemma tcp6_driven : forall c t d out S6 S4 D6 D4 g now al q k time st v en t' evs, reachable TCP t -> offers d out -> ~ In false al -> connection t S6 S4 D4 q k time st ->
  (d_dynamic d = true -> mask_domain_matches d (fst S4) (snd S4) = true) ->
  bib_add_tcp6 c t d S6 D6 D4 g now al = Ok (v, en, t', evs) ->
  (v = VDrop /\ repeated g q st /\ connection t' S6 S4 D4 q k time st) \/
  ((v = VContinue /\ exists e, en = Session e) /\ ~ repeated g q st /\ driven (c_handle_rst c) g now S6 S4 D4 q k time st t').
Proof.
  intros c t d out S6 S4 D6 D4 g now al q k time st v en t' evs R O Ha (j & s & b & Hs & Hb & E6 & E4 & Ed & Eq & Ek & Et & Es) Hd H. destruct (reach_inv TCP t R) as [I _].
  unfold bib_add_tcp6 in H. destruct (alloc_bib_session al) as [a al'] eqn:Ea. destruct (alloc2_in _ _ _ Ea) as [_ Hok]. destruct a; [|destruct Hok; [discriminate|contradiction]..].
  assert (Ni : issue216_needed (Some d) b = false) by (unfold issue216_needed; rewrite E4; destruct (d_dynamic d); [rewrite Hd by reflexivity|]; reflexivity).
  unfold find_bib_session6 in H. cbn [w_src6] in H. destruct (find6 _ _ S6 I) as (o & n6 & Eo & H6). rewrite Eo in H. cbn [bind] in H.
  assert (X : o = Some (s_bib s)).
  { assert (Hi : In (s_bib s) (tree6 t)) by (apply (in6 _ _ I); split; [congruence|intros []]). destruct o as [bid|]; cbn [hit] in H6.
    - destruct H6 as [Hn K6]. apply nth_error_In in Hn. f_equal. apply (srt_inj _ _ bid (s_bib s) (i6 _ _ I) Hn Hi). rewrite K6. unfold key6. rewrite Hb. congruence.
    - exfalso. destruct H6 as (B1 & B2 & B3). rewrite <- (firstn_skipn n6 (tree6 t)) in Hi. apply in_app_or in Hi.
      destruct Hi as [Hi|Hi]; [apply B2 in Hi|apply B3 in Hi]; unfold key6 in Hi; rewrite Hb, E6 in Hi; exact (lt_ta_irr _ Hi). }
  subst o. unfold getb in H. rewrite Hb in H. cbn [bind] in H. rewrite Ni in H. cbn [negb] in H. cbn [w_dst4] in H.
  destruct (finds _ _ (s_bib s) b D4 I Hb) as (os & ns & a2 & Ef & Hh & _). rewrite Ef in H. cbn [bind] in H.
  assert (X : os = Some j).
  { destruct os as [sid|]; cbn [hit] in Hh.
    - destruct Hh as [Hn Hk]. apply nth_error_In in Hn. apply (ibs _ _ I _ _ Hb) in Hn. destruct Hn as (s' & Hs' & Es'). f_equal. unfold keys in Hk. rewrite Hs' in Hk.
      apply (proj1 (proj2 (proj2 (C16_sessions TCP t R))) sid j s' s Hs' Hs Es'). congruence.
    - exfalso. destruct Hh as (B1 & B2 & B3). assert (Hj : In j (b_sess b)) by (apply (ibs _ _ I _ _ Hb); eauto).
      rewrite <- (firstn_skipn ns (b_sess b)) in Hj. apply in_app_or in Hj. destruct Hj as [Hj|Hj]; [apply B2 in Hj|apply B3 in Hj]; unfold keys in Hj; rewrite Hs, Ed in Hj; exact (lt_ta_irr _ Hj). }
  subst os. cbn [f_t f_sess f_al f_bdl f_ev] in H. assert (L : Bib_Fate.live [] t j s) by (split; [exact Hs|intros []]).
  destruct (feed_ok _ c t g j s now al' I L) as [[Ex _]|(v1 & en1 & t2 & evs2 & Ex & _ & _ & _ & Hf)]; cbv zeta in Ex; rewrite Ex in H; cbn [bind commit_delete_list fst snd] in H; [discriminate|]. injection H as <- <- <- _.
  exact (fed_driven _ _ _ _ _ _ _ _ _ _ _ _ _ _ _ _ _ Hs Hb E6 E4 Ed Eq Ek Et Es Hf).
Qed.

(** ** From the octets *)
Lemma bit_flag x k : bit x k = true <-> (x / 2 ^ k) mod 2 = 1.
Proof. unfold bit. apply Z.eqb_eq. Qed.
Lemma fields_flags : forall f l m mt k S D, fields_at f l m mt = Ok k -> k_fam k = f -> flow k = Some (TCP, S, D) ->
  exists g, determine_in_tuple k = (Continue, Some (View f (k_src k) (k_dst k) TCP false g S D TCP)) /\ flags_of f m (l4off mt) g.
Proof.
  intros f l m mt k S D E Hf Fl. rewrite (flow_view _ _ _ _ Fl), Hf. eexists. split; [reflexivity|].
  unfold fields_at in E. unbind E u Eu. unbind E h Eh. injection E as Ek. assert (Kh : k_l4 k = h) by (subst k; destruct f; reflexivity).
  unfold flow in Fl. rewrite Kh in *. clear Ek Kh Eu. destruct (l4p mt).
  - unbind Eh p Ep. unbind Eh u2 Eu2. injection Eh as <-. unfold flags_of, syn, fin, rst, flag. cbn [sg_fam sg_syn sg_fin sg_rst]. change (byte m (l4off mt + 13)) with (oct m (l4off mt + 13)). rewrite !bit_flag. unfold SYN, FIN, RST. tauto.
  - unbind Eh p Ep. injection Eh as <-. discriminate.
  - exfalso. unbind Eh u2 Eu2. destruct (match f with V6 => is_icmp6_info _ | V4 => _ end); [unbind Eh u3 Eu3; injection Eh as <-|destruct (match f with V6 => is_icmp6_error _ | V4 => _ end); [unbind Eh i Ei; injection Eh as <-|injection Eh as <-]];
      destruct (k_fam k); repeat (match type of Fl with context [match ?x with _ => _ end] => destruct x end; try discriminate).
  - injection Eh as <-. discriminate.
Qed.

(** What became of the packet: it went on to the fourth step. *)
Definition went_on (r : result) : Prop := match r with Unparsed _ | Refuses _ => False | _ => True end.

(** A segment from the IPv4 side.
    Missing: fragments that are not the first, and segments whose header is cut. *)
Theorem C92_4_partial : forall g better n w s m lin up pay S6 S4 D4 q k time st r s' evs,
  reachable_db s -> pool6_ok g -> Forall is_u8 m -> (lin <= length m)%nat ->
  packet4 m (oct m 9) up pay -> fr4_offset m 0 = 0 -> talk4 m up TCP D4 S4 -> 5 <= oct m (up + 12) / 16 ->
  pool4db_contains (g_pool4 g) (n_ifas n) TCP (fst S4) (snd S4) = Ok true -> ~ In false (n_al n) ->
  connection (d_tcp s) S6 S4 D4 q k time st ->
  core4 g better n w s true m lin = Ok (r, s', evs) ->
  exists sg, flags_of V4 m up sg /\ d_udp s' = d_udp s /\ d_icmp s' = d_icmp s /\
    ((r = Refuses Dropped /\ repeated sg q st /\ connection (d_tcp s') S6 S4 D4 q k time st) \/
     (went_on r /\ ~ repeated sg q st /\ driven (c_handle_rst (g_cfg g)) sg (n_now n) S6 S4 D4 q k time st (d_tcp s'))).
Proof.
  intros g better n w s m lin up pay S6 S4 D4 q k time st r s' evs R P6 F L PK FO TK DO Hp Ha C H.
  destruct (C62_accepts m lin _ up pay L PK) as (mt & l & G & <- & <-).
  destruct (fields4 true m lin mt l TCP D4 S4 F L G FO (fun _ => DO) TK) as (kk & Ek & Hf & Fl & _).
  destruct (fields_flags V4 l m mt kk D4 S4 Ek Hf Fl) as (sg & Ev & Hg). exists sg. split; [exact Hg|].
  unfold core4 in H. rewrite G, Ek in H. cbn [bind] in H. rewrite Ev in H. unbind H x Es. destruct x as [[o s1] e1].
  set (v := View V4 (k_src kk) (k_dst kk) TCP false sg D4 S4 TCP) in *.
  assert (UD : is_u32 (fst D4)).
  { pose proof TK as (TS & _). pose proof PK as (L20 & _). rewrite TS. unfold field, is_u32. change (2^32) with (256 ^ 4). pose proof (be_of_bound (firstn 4 (skipn 12 m))) as X. rewrite firstn_length, skipn_length, Nat.min_l in X by lia. apply X. apply firstn_u8. apply skipn_u8. exact F. }
  destruct P6 as (Wt & fo & P). destruct (C01_rfc6052_roundtrip _ _ _ Wt P UD) as (a6 & Ea & _).
  unfold steps23 in Es. unbind Es y Ef. unfold filtering_and_updating in Ef. unbind Ef a Ead. unfold fu_admit in Ead. cbn [v v_fam v_pr v_dst v_err] in Ead. rewrite Hp in Ead. cbn [bind negb] in Ead. injection Ead as <-.
  unfold fu_update in Ef. cbn [v v_l4 v_fam] in Ef. unfold ipv4_tcp, xlat_src_4to6 in Ef. cbn [v v_src v_dst v_seg fst] in Ef. rewrite Ea in Ef.
  unbind Ef z Eb. destruct z as [[[vd en] t] e2]. injection Ef as <-.
  destruct R as (_ & Rt & _ & _).
  destruct (tcp4_driven _ _ _ _ _ _ _ _ _ _ _ _ _ _ _ _ _ _ Rt Ha C Eb) as [(-> & Rp & C')|((-> & en0 & ->) & Nr & Dr)]; cbn [of_verdict] in Es.
  - injection Es as <- <- <-. injection H as <- <- _. split; [reflexivity|]. split; [reflexivity|]. left. auto.
  - assert (X : went_on r /\ s' = set_table s TCP t).
    { unbind Es y Eo. assert (Y : exists o', y = (Continue, Some o')).
      { unfold compute_out_tuple, find_bib in Eo. cbn [bind] in Eo. cbn [v v_fam v_src v_pr] in Eo. rewrite Ea in Eo. injection Eo as <-. eexists. reflexivity. }
      destruct Y as (o' & ->). injection Es as <- <- <-. unfold step4_46 in H. destruct (generate_saddr6_nat64 _ _ _ _ _); [|injection H as <- <- _; split; [exact Logic.I|reflexivity]].
      destruct (xlat46 _ _ _ _); try discriminate; injection H as <- <- _; (split; [exact Logic.I|reflexivity]). }
    destruct X as [X ->]. split; [reflexivity|]. split; [reflexivity|]. right. auto.
Qed.
Print Assumptions C92_4_partial.

(** A segment from the IPv6 side, to a node that is not behind this translator (else
    it goes through the tables twice).
    Missing: as above, and hairpinning. *)
Theorem C92_6_partial : forall g better n n2 nm w w2 s m lin hs p up pay S6 S4 D6 D4 d q k time st r s' evs,
  reachable_db s -> usable4 g n -> Forall is_u8 m -> (lin <= length m)%nat ->
  packet6 m hs p up pay -> first_piece m hs -> talk6 m p up TCP S6 D6 -> 5 <= oct m (up + 12) / 16 ->
  prefix6_contains (g_pool6 g) (fst S6) = false -> rfc6052_6to4 (g_pool6 g) (fst D6) = Some (fst D4) -> snd D6 = snd D4 ->
  mask_domain_find (g_pool4 g) TCP (n_mark n) (n_hash n) (n_eph n) (n_route n) (n_kro n) = Ok (Domain d) ->
  (d_dynamic d = true -> mask_domain_matches d (fst S4) (snd S4) = true) ->
  pool4db_contains (g_pool4 g) (n_ifas n) TCP (fst D4) (snd D4) = Ok false -> ~ In false (n_al n) ->
  connection (d_tcp s) S6 S4 D4 q k time st ->
  core6 g better n n2 nm w w2 s true m lin = Ok (r, s', evs) ->
  exists sg, flags_of V6 m up sg /\ d_udp s' = d_udp s /\ d_icmp s' = d_icmp s /\
    went_on r /\ driven (c_handle_rst (g_cfg g)) sg (n_now n) S6 S4 D4 q k time st (d_tcp s').
Proof.
  intros g better n n2 nm w w2 s m lin hs p up pay S6 S4 D6 D4 d q k time st r s' evs R U F L PK FP TK DO N6 E64 Epo Em Hd Hh Ha C H.
  destruct (C39_accepts m lin hs p up pay F L PK) as (mt & l & G & <- & <-).
  destruct (fields6 true m lin mt l hs p TCP S6 D6 F L G PK FP (fun _ => DO) TK) as (kk & Ek & Hf & Fl & _).
  destruct (fields_flags V6 l m mt kk S6 D6 Ek Hf Fl) as (sg & Ev & Hg). exists sg. split; [exact Hg|].
  assert (Ks : k_src kk = fst S6 /\ k_dst kk = fst D6) by (unfold flow in Fl; destruct (k_l4 kk) as [| |ty id i|]; try discriminate; [injection Fl as <- <-; auto|exfalso; destruct (k_fam kk); repeat (match type of Fl with context [match ?x with _ => _ end] => destruct x end; try discriminate)]).
  destruct Ks as [Ks Kd].
  unfold core6 in H. rewrite G, Ek in H. cbn [bind] in H. rewrite Ev in H. unbind H x Es. destruct x as [[o s1] e1].
  set (v := View V6 (k_src kk) (k_dst kk) TCP false sg S6 D6 TCP) in *.
  assert (D46 : (fst D4, snd D6) = D4) by (rewrite Epo; symmetry; apply surjective_pairing).
  assert (Cd : prefix6_contains (g_pool6 g) (fst D6) = true) by (destruct (prefix6_contains (g_pool6 g) (fst D6)) eqn:X; [reflexivity|]; unfold rfc6052_6to4 in E64; rewrite X in E64; discriminate).
  unfold steps23 in Es. unbind Es y Ef. unfold filtering_and_updating in Ef. unbind Ef a Ead. unfold fu_admit in Ead. cbn [v v_fam v_saddr v_daddr v_err] in Ead. rewrite Ks, Kd, N6, Cd in Ead. cbn [negb] in Ead. injection Ead as <-.
  unfold fu_update in Ef. cbn [v v_l4 v_fam] in Ef. unfold ipv6_tcp, xlat_dst_6to4 in Ef. cbn [v v_src v_dst v_seg v_pr] in Ef. rewrite E64, Em in Ef. cbn [bind] in Ef. rewrite D46 in Ef.
  unbind Ef z Eb. destruct z as [[[vd en] t] e2]. injection Ef as <-.
  destruct R as (_ & Rt & _ & _). destruct (U TCP d Em) as (masks & Of & _).
  destruct (tcp6_driven _ _ _ _ _ _ _ _ _ _ _ _ _ _ _ _ _ _ _ Rt Of Ha C Hd Eb) as [(_ & (_ & X & _) & _)|((-> & en0 & ->) & Nr & Dr)].
  { exfalso. destruct Hg as (Hg & _). unfold from4 in X. congruence. }
  cbn [of_verdict] in Es. unbind Es y Eo. unfold compute_out_tuple, find_bib in Eo. cbn [bind] in Eo. cbn [v v_fam v_dst v_pr] in Eo. rewrite E64 in Eo. injection Eo as <-. injection Es as <- <- <-.
  assert (X : went_on r /\ s' = set_table s TCP t).
  { destruct (xlat64 _ _ _ _) as [out| | |]; try discriminate; try (injection H as <- <- _; split; [exact Logic.I|reflexivity]).
    unbind H h Ehp. unfold is_hairpin in Ehp. cbn [v v_fam v_pr o_dst fst snd] in Ehp. rewrite Epo, Hh in Ehp. injection Ehp as <-. injection H as <- <- _. split; [exact Logic.I|reflexivity]. }
  destruct X as [X ->]. split; [reflexivity|]. split; [reflexivity|]. split; [exact X|exact Dr].
Qed.
Print Assumptions C92_6_partial.
