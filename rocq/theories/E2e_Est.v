(** * C94: an established connection stays established, and what its nodes send is
    delivered, as long as promised, whatever octets come *)
Require Import Verif.Base Verif.Addr_Model Verif.Addr_Spec Verif.Addr_Properties Verif.Rtrie_Model Verif.Pool4_Model Verif.Pool4_Spec Verif.Fsm_Model Verif.Fsm_Spec Verif.Bib_Model
  Verif.Bib_Inv Verif.Bib_Find Verif.Bib_Add Verif.Bib_Hist Verif.Bib_Time Verif.Bib_Spec Verif.Bib_Properties Verif.Nat64_Model Verif.Nat64_Spec Verif.Nat64_Properties Verif.Nat64_Errors Verif.Nat64_Safe Verif.Nat64_Pool4.
Require Import Verif.Csum_Model Verif.Csum_Spec Verif.Csum_Proofs Verif.Csum_Properties Verif.Pkt_Model Verif.Pkt_Spec Verif.Pkt_Proofs Verif.Pkt_Properties
  Verif.Hdr_Model Verif.Hdr_Spec Verif.Hdr_Proofs Verif.Hdr_Properties Verif.Ext_Model Verif.Ext_Spec Verif.Xlat_Model Verif.Xlat_Spec Verif.Xlat_Proofs Verif.Xlat_Proofs46
  Verif.Xlat_Properties Verif.Icmperr_Spec Verif.Icmperr_Properties Verif.Trip_Spec Verif.Trip_Proofs Verif.E2e_Model Verif.E2e_Spec Verif.E2e_Proofs Verif.E2e_Out Verif.E2e_Back Verif.E2e_Hairpin
  Verif.E2e_Properties Verif.E2e_Pool4 Verif.E2e_Cases Verif.Bib_Origin Verif.Bib_Keep Verif.E2e_Life Verif.E2e_Keep Verif.E2e_Lives Verif.E2e_Tcp Verif.E2e_TcpCases Verif.Bib_Est.
Local Ltac Zify.zify_post_hook ::= idtac.

(** ** What is claimed *)
Definition closing_flag (m : list Z) (up : nat) : Prop := flag m up FIN \/ flag m up RST.
(** A happening which does not end the connection of the node at [S6], which has [S4],
    with [D4]: it is not one of its segments with FIN or RST (the last case is that of
    a peer which is itself behind the translator and writes to [S4]); if pool4 is empty,
    the address is still the one the route has; and [lets_run]. *)
Definition no_end (S6 S4 D4 : ta) (t0 : Z) (x : happening) : Prop :=
  match x with
  | From6 g _ n _ _ _ _ _ m lin =>
      (forall d, mask_domain_find (g_pool4 g) TCP (n_mark n) (n_hash n) (n_eph n) (n_route n) (n_kro n) = Ok (Domain d) ->
         d_dynamic d = true -> mask_domain_matches d (fst S4) (snd S4) = true) /\ (lin <= length m)%nat /\
      forall hs up pay A B a, packet6 m hs 6 up pay -> talk6 m 6 up TCP A B -> rfc6052_6to4 (g_pool6 g) (fst B) = Some a ->
        closing_flag m up -> ~ (A = S6 /\ (a, snd B) = D4) /\ (a, snd B) <> S4
  | From4 _ _ _ _ _ m lin => (lin <= length m)%nat /\ forall up pay, packet4 m 6 up pay -> talk4 m up TCP D4 S4 -> ~ closing_flag m up
  | Table c p o => p = TCP -> lets_run S6 S4 D4 t0 c o
  end.

(** ** Proofs *)
(** What a packet's view says of its octets *)
Lemma tcp_view : forall f l m mt k v, fields_at f l m mt = Ok k -> determine_in_tuple k = (Continue, Some v) -> v_pr v = TCP -> v_err v = false ->
  l4p mt = TCP /\ v_src v = (k_src k, word m (l4off mt)) /\ v_dst v = (k_dst k, word m (l4off mt + 2)) /\ flags_of f m (l4off mt) (v_seg v)
  /\ match f with V6 => k_src k = be128 m 8 /\ k_dst k = be128 m 24 | V4 => k_src k = be32 m 12 /\ k_dst k = be32 m 16 /\ (20 <= l)%nat end.
Proof.
  intros f l m mt k v E D Ep Ee. unfold fields_at in E. unbind E u Eu. unbind E h Eh. injection E as Ek.
  assert (Kf : k_fam k = f /\ k_l4 k = h) by (subst k; destruct f; split; reflexivity). destruct Kf as [Kf Kh].
  assert (Ka : match f with V6 => k_src k = be128 m 8 /\ k_dst k = be128 m 24 | V4 => k_src k = be32 m 12 /\ k_dst k = be32 m 16 /\ (20 <= l)%nat end).
  { subst k. destruct f; cbn; [auto|]. split; [reflexivity|]. split; [reflexivity|]. unfold direct in Eu. destruct (0 + 20 <=? l)%nat eqn:X; [apply Nat.leb_le in X; exact X|discriminate]. }
  unfold determine_in_tuple in D. rewrite Kh, Kf in D. destruct (l4p mt).
  - unbind Eh p Epo. unbind Eh u2 Eu2. injection Eh as <-. unfold ports_at in Epo. unbind Epo u3 Eu3. injection Epo as <-. injection D as <-. cbn [v_src v_dst v_seg fst snd]. split; [reflexivity|]. rewrite !be16_word.
    split; [reflexivity|]. split; [reflexivity|]. split; [|exact Ka].
    unfold flags_of, syn, fin, rst, flag. cbn [sg_fam sg_syn sg_fin sg_rst]. change (byte m (l4off mt + 13)) with (oct m (l4off mt + 13)). rewrite !bit_flag. unfold SYN, FIN, RST. tauto.
  - unbind Eh p Epo. injection Eh as <-. injection D as <-. discriminate.
  - exfalso. unbind Eh u2 Eu2. destruct (match f with V6 => is_icmp6_info (byte m (l4off mt)) | V4 => is_icmp4_info (byte m (l4off mt)) end) eqn:Ei.
    + unbind Eh u3 Eu3. injection Eh as <-. rewrite Ei in D. injection D as <-. discriminate.
    + destruct (match f with V6 => is_icmp6_error (byte m (l4off mt)) | V4 => is_icmp4_error (byte m (l4off mt)) end) eqn:Eer.
      * unbind Eh i Ein. injection Eh as <-. rewrite Ei, Eer in D. unfold icmp_err in D. destruct (in_l4 i) as [s d|s d|ty id|]; try discriminate.
        -- injection D as <-. discriminate.
        -- injection D as <-. discriminate.
        -- rewrite Kf in D. destruct (match f with V6 => is_icmp6_error ty | V4 => is_icmp4_error ty end); [discriminate|]. injection D as <-. discriminate.
      * injection Eh as <-. rewrite Ei, Eer in D. discriminate.
  - injection Eh as <-. discriminate.
Qed.
Lemma open_flags : forall f m up g, flags_of f m up g -> ~ closing_flag m up -> open g.
Proof.
  intros f m up g (_ & _ & Ff & Fr) N. unfold closing_flag in N. rewrite <- Ff, <- Fr in N. unfold fin, rst in N. split; [destruct (sg_fin g)|destruct (sg_rst g)]; tauto.
Qed.

(** What a packet does to the TCP table *)
Definition tcp_op (g : xconf) (n : env) (v : view) (o : op) : Prop :=
  v_err v = false /\ v_pr v = TCP /\
  match v_fam v with
  | V6 => exists d a, mask_domain_find (g_pool4 g) TCP (n_mark n) (n_hash n) (n_eph n) (n_route n) (n_kro n) = Ok (Domain d) /\ rfc6052_6to4 (g_pool6 g) (fst (v_dst v)) = Some a
      /\ o = OTcp6 d (v_src v) (v_dst v) (a, snd (v_dst v)) (v_seg v) (n_now n) (n_al n)
  | V4 => exists d6, o = OTcp4 (v_dst v) (v_src v) d6 (v_seg v) (n_skb n) (n_now n) (n_al n)
  end.
Lemma tcp23 : forall g n s v o s' evs, v_pr v <> OTHER -> v_err v = true \/ v_l4 v = v_pr v -> steps23 g n s v = Ok (o, s', evs) ->
  d_tcp s' = d_tcp s \/ exists o x evs, tcp_op g n v o /\ step (g_cfg g) TCP (d_tcp s) o = Ok (x, d_tcp s', evs).
Proof.
  intros g n s v o s' evs No El H. destruct (v_err v) eqn:Er.
  { destruct (steps23_error _ _ _ _ _ _ _ Er H) as [-> _]. left. reflexivity. }
  destruct El as [X|El]; [discriminate|].
  unfold steps23 in H. unbind H r E. destruct r as [[[x en] s1] evs1].
  assert (S1 : d_tcp s1 = d_tcp s \/ exists o x evs, tcp_op g n v o /\ step (g_cfg g) TCP (d_tcp s) o = Ok (x, d_tcp s1, evs)).
  { clear H. unfold filtering_and_updating in E. unbind E a Ea. destruct a as [y|]; [injection E as _ _ <- _; left; reflexivity|]. clear Ea. unfold fu_update in E.
    assert (A6 : v_pr v <> TCP -> ipv6_simple g n s v = Ok (x, en, s1, evs1) -> d_tcp s1 = d_tcp s).
    { clear E. intros Np E. unfold ipv6_simple in E. destruct (xlat_dst_6to4 g v) as [d4|]; [|injection E as _ _ <- _; reflexivity]. unbind E f Em. destruct f as [d|]; [|injection E as _ _ <- _; reflexivity].
      unbind E r Eb. destruct r as [[[e en2] t] e2]. injection E as _ _ <- _. destruct (v_pr v); try congruence; reflexivity. }
    assert (A4 : v_pr v <> TCP -> ipv4_simple g n s v = Ok (x, en, s1, evs1) -> d_tcp s1 = d_tcp s).
    { clear E. intros Np E. unfold ipv4_simple in E. destruct (xlat_src_4to6 g v) as [d6|]; [|injection E as _ _ <- _; reflexivity].
      unbind E r Eb. destruct r as [[e en2] t]. injection E as _ _ <- _. destruct (v_pr v); try congruence; reflexivity. }
    destruct (v_l4 v) eqn:El4; destruct (v_fam v) eqn:Ef.
    all: try (left; apply A6; [congruence|exact E]).
    all: try (left; apply A4; [congruence|exact E]).
    all: try (injection E as _ _ <- _; left; reflexivity).
    - unfold ipv6_tcp, xlat_dst_6to4 in E. destruct (rfc6052_6to4 (g_pool6 g) (fst (v_dst v))) as [a|] eqn:Ea; [|injection E as _ _ <- _; left; reflexivity]. rewrite <- El in E. unbind E f Em. destruct f as [d|]; [|injection E as _ _ <- _; left; reflexivity].
      unbind E r Eb. destruct r as [[[e en2] t] e2]. injection E as _ _ <- _. right.
      exists (OTcp6 d (v_src v) (v_dst v) (a, snd (v_dst v)) (v_seg v) (n_now n) (n_al n)), (RVerdict e en2), e2. split; [split; [exact Er|]; split; [congruence|]; rewrite Ef; eauto 10|].
      cbn [step get_table]. rewrite Eb. reflexivity.
    - unfold ipv4_tcp in E. destruct (xlat_src_4to6 g v) as [d6|]; [|injection E as _ _ <- _; left; reflexivity].
      unbind E r Eb. destruct r as [[[e en2] t] e2]. injection E as _ _ <- _. right.
      exists (OTcp4 (v_dst v) (v_src v) d6 (v_seg v) (n_skb n) (n_now n) (n_al n)), (RVerdict e en2), e2. split; [split; [exact Er|]; split; [congruence|]; rewrite Ef; eauto 10|].
      cbn [step get_table]. rewrite Eb. reflexivity.
    - destruct (g_drop_info g); [injection E as _ _ <- _; left; reflexivity|]. left; apply A6; [congruence|exact E]. }
  destruct x; try (injection H as _ <- _; exact S1). unbind H o1 Eo. destruct o1 as [[] [ot|]]; injection H as _ <- _; exact S1.
Qed.
Lemma est23 : forall g n s v o s' evs T S6 S4 D4 t0, reachable_db s -> usable4 g n \/ v_fam v = V4 -> v_pr v <> OTHER -> v_err v = true \/ v_l4 v = v_pr v -> T <= n_now n -> ord T (d_tcp s) -> t0 <= T ->
  (v_fam v = V6 -> forall d, mask_domain_find (g_pool4 g) TCP (n_mark n) (n_hash n) (n_eph n) (n_route n) (n_kro n) = Ok (Domain d) -> d_dynamic d = true -> mask_domain_matches d (fst S4) (snd S4) = true) ->
  (v_err v = false -> v_pr v = TCP -> match v_fam v with V6 => forall a, rfc6052_6to4 (g_pool6 g) (fst (v_dst v)) = Some a -> v_src v = S6 -> (a, snd (v_dst v)) = D4 -> open (v_seg v) | V4 => v_dst v = S4 -> v_src v = D4 -> open (v_seg v) end) ->
  steps23 g n s v = Ok (o, s', evs) -> est S6 S4 D4 t0 (d_tcp s) -> est S6 S4 D4 t0 (d_tcp s').
Proof.
  intros g n s v o s' evs T S6 S4 D4 t0 R U No El Ht O H0 Hd Hc H St. destruct (tcp23 _ _ _ _ _ _ _ No El H) as [->|(p & x & e & (Er & Ep & Op) & E)]; [exact St|].
  destruct (reach_inv _ _ (reachable_table s TCP R ltac:(discriminate))) as [I _]. specialize (Hc Er Ep).
  destruct (v_fam v) eqn:Ef.
  - destruct Op as (d & a & Em & Ea & ->). destruct U as [U|]; [|discriminate]. destruct (U _ _ Em) as (masks & Of & _).
    refine (est_step _ (OTcp6 _ _ _ _ _ _ _) (n_now n) _ _ _ _ _ _ _ _ _ I (ord_mono _ _ _ O Ht) (Z.le_trans _ _ _ H0 Ht) (fun _ => eq_refl) _ E St); [exists masks; exact Of|].
    split; [exact (fun X => X)|]. split; [|exact (Hc a Ea)]. cbn [outgrown]. intros (_ & X & Y). rewrite (Hd eq_refl d Em X) in Y. discriminate.
  - destruct Op as (d6 & ->).
    refine (est_step _ (OTcp4 _ _ _ _ _ _ _) (n_now n) _ _ _ _ _ _ _ _ Logic.I I (ord_mono _ _ _ O Ht) (Z.le_trans _ _ _ H0 Ht) (fun _ => eq_refl) _ E St).
    split; [exact (fun X => X)|]. split; [exact (fun X => X)|exact Hc].
Qed.
Lemma sent_dst : forall g n s v f o s' evs, steps23 g n s v = Ok (Sent f o, s', evs) -> v_fam v = V6 -> v_pr v = TCP ->
  exists a, rfc6052_6to4 (g_pool6 g) (fst (v_dst v)) = Some a /\ o_dst o = (a, snd (v_dst v)).
Proof.
  intros g n s v f o s' evs H Ef Ep. unfold steps23 in H. unbind H r E. destruct r as [[[x en] s1] evs1]. destruct x; try discriminate. unbind H o1 Eo. unfold compute_out_tuple in Eo. unbind Eo b Eb.
  destruct b as [[s6 s4]|]; [|injection Eo as <-; discriminate]. rewrite Ef, Ep in Eo. destruct (rfc6052_6to4 (g_pool6 g) (fst (v_dst v))) as [a|] eqn:Ea; [|injection Eo as <-; discriminate].
  injection Eo as <-. injection H as _ <- _ _. exists a. split; reflexivity.
Qed.

Lemma occur_est : forall s x s' T h S6 S4 D4 t0, sound_db s -> fair x -> on_time T (x :: h) -> punctual T s -> t0 <= T -> no_end S6 S4 D4 t0 x -> occur s x = Ok s' ->
  est S6 S4 D4 t0 (d_tcp s) -> est S6 S4 D4 t0 (d_tcp s').
Proof.
  intros s [g better n n2 nm w w2 mem m lin|g better n w mem m lin|c p o] s' T h S6 S4 D4 t0 Sd Fa Ti P H0 Ne H St; cbn [occur fair on_time no_end] in *;
    pose proof (proj1 Sd) as R; pose proof (P TCP ltac:(discriminate)) as O; cbn [get_table] in O.
  - destruct Fa as (F & U & P6). destruct Ne as (Hd & L & Ne). destruct Ti as [[T1 T2] _]. unbind H r E. destruct r as [[r s1] evs]. injection H as <-. unfold core6 in E.
    destruct (pkt_init_ipv6 mem m lin) as [[mt l]|b|] eqn:Ei; [|injection E as _ <- _; exact St|discriminate].
    unbind E k Ek. destruct (determine_in_tuple k) as [x [v|]] eqn:Ev; [|destruct x; injection E as _ <- _; exact St]. destruct x; try (injection E as _ <- _; exact St).
    destruct (view_typed _ _ _ _ _ _ F Ek Ev) as (Vf & Vo & Ve & Vt). unbind E r1 Er. destruct r1 as [[r1 s2] evs2].
    assert (Cl : v_err v = false -> v_pr v = TCP -> forall a, rfc6052_6to4 (g_pool6 g) (fst (v_dst v)) = Some a -> (v_src v = S6 /\ (a, snd (v_dst v)) = D4) \/ (a, snd (v_dst v)) = S4 -> open (v_seg v)).
    { intros Er' Ep a Ea Hx. destruct (tcp_view _ _ _ _ _ _ Ek Ev Ep Er') as (E4 & Es & Ed & Fl & A1 & A2).
      destruct (C39_parses mem m lin mt l F L Ei) as (hs & p & PK & _ & Pt & _). assert (p = 6) by (apply Pt; exact E4). subst p.
      apply (open_flags _ _ _ _ Fl). intros Cf. destruct (Ne hs _ _ (v_src v) (v_dst v) a PK) as [N1 N2]; [|exact Ea|exact Cf|tauto].
      rewrite Es, Ed, A1, A2, !be128_field. split; [reflexivity|]. split; [reflexivity|]. left. auto. }
    pose proof (est23 g n s v _ _ _ T S6 S4 D4 t0 R (or_introl U) Vo Ve T1 O H0 (fun _ => Hd) ltac:(intros X Y; rewrite Vf; intros a Ea X1 X2; exact (Cl X Y a Ea (or_introl (conj X1 X2)))) Er St) as St2.
    assert (Sd2 : sound_db s2). { refine (sound23 g n s v _ _ _ Sd Vo Ve _ Er). intros X. rewrite Vf. split; [exact U|]. exact (proj1 (Vt X)). }
    pose proof (moved_ord g n V6 TCP s s2 T (or_introl U) ltac:(discriminate) R T1 O ltac:(rewrite <- Vf; exact (moved23 _ _ _ _ _ _ _ TCP Vo Ve Er))) as O2. cbn [get_table] in O2.
    destruct r1 as [f ot|y]; [|injection E as _ <- _; exact St2]. destruct (xlat64 (env64_of w ot) l m mt) as [out|j|j y i|] eqn:Ex; try discriminate; try (injection E as _ <- _; exact St2).
    unbind E hh Eh. destruct hh; [|injection E as _ <- _; exact St2]. destruct nm; [|injection E as _ <- _; exact St2]. unbind E r3 Er3. destruct r3 as [[r3 s3] evs3].
    assert (St3 : est S6 S4 D4 t0 (d_tcp s3)).
    { refine (est23 g n2 s2 (hairpin_view v ot) _ _ _ (n_now n) S6 S4 D4 t0 (proj1 Sd2) _ Vo Ve T2 O2 (Z.le_trans _ _ _ H0 T1) _ _ Er3 St2).
      - right. unfold hairpin_view. cbn [v_fam]. rewrite Vf. reflexivity.
      - unfold hairpin_view. cbn [v_fam]. rewrite Vf. discriminate.
      - unfold hairpin_view. cbn [v_fam v_err v_pr v_seg v_dst v_src]. rewrite Vf. cbn [flip]. intros X Y Z _. destruct (sent_dst _ _ _ _ _ _ _ _ Er Vf Y) as (a & Ea & Eo). rewrite Eo in Z. exact (Cl X Y a Ea (or_intror Z)). }
    destruct r3 as [f2 o2|y]; [|injection E as _ <- _; exact St3].
    destruct (step4_46 _ _ _ _ _ _ _ _ _) as [[| | |]|]; try discriminate; injection E as _ <- _; exact St3.
  - destruct Ne as (L & Ne). destruct Ti as [T1 _]. unbind H r E. destruct r as [[r s1] evs]. injection H as <-. unfold core4 in E.
    destruct (pkt_init_ipv4 mem m lin) as [[mt l]|b|] eqn:Ei; [|injection E as _ <- _; exact St|discriminate].
    unbind E k Ek. destruct (determine_in_tuple k) as [x [v|]] eqn:Ev; [|destruct x; injection E as _ <- _; exact St]. destruct x; try (injection E as _ <- _; exact St).
    destruct (view_typed _ _ _ _ _ _ Fa Ek Ev) as (Vf & Vo & Ve & Vt). unbind E r1 Er. destruct r1 as [[r1 s2] evs2].
    assert (St2 : est S6 S4 D4 t0 (d_tcp s2)).
    { refine (est23 g n s v _ _ _ T S6 S4 D4 t0 R (or_intror Vf) Vo Ve T1 O H0 ltac:(rewrite Vf; discriminate) _ Er St). intros X Y. rewrite Vf. intros Hs Hd.
      destruct (tcp_view _ _ _ _ _ _ Ek Ev Y X) as (E4 & Es & Ed & Fl & A1 & A2 & A3).
      destruct (C62_parses mem m lin mt l L Ei) as (PK & _ & Pt & _ & _ & _ & _ & Ll & _). assert (P9 : oct m 9 = 6) by (apply Pt; exact E4). rewrite P9 in PK.
      apply (open_flags _ _ _ _ Fl). apply (Ne _ _ PK). rewrite <- Hs, <- Hd, Es, Ed, A1, A2, !be32_field by lia. split; [reflexivity|]. split; [reflexivity|]. left. auto. }
    destruct r1 as [f ot|y]; [|injection E as _ <- _; exact St2].
    destruct (step4_46 _ _ _ _ _ _ _ _ _) as [[| | |]|]; try discriminate; injection E as _ <- _; exact St2.
  - pose proof (fair_wf c p o Fa) as W. destruct Fa as (No & Fo). unbind H r E. destruct r as [[r t] evs]. injection H as <-. destruct (proto_eq_dec p TCP) as [->|N].
    + destruct (reach_inv _ _ (reachable_table s TCP R No)) as [I _]. specialize (Ne eq_refl). cbn [get_table set_table d_tcp] in *. destruct (timed o) eqn:Et.
      * destruct Ti as (T1 & T2 & _). refine (est_step _ _ _ _ _ _ _ _ _ _ _ W I (ord_mono _ _ _ O T1) _ (fun _ => eq_refl) Ne E St). lia.
      * refine (est_step _ _ T _ _ _ _ _ _ _ _ W I O H0 _ Ne E St). congruence.
    + destruct p; try congruence; exact St.
Qed.
Lemma live_est : forall h s s' T S6 S4 D4 t0, sound_db s -> Forall fair h -> on_time T h -> punctual T s -> t0 <= T -> Forall (no_end S6 S4 D4 t0) h -> live s h = Ok s' ->
  est S6 S4 D4 t0 (d_tcp s) -> est S6 S4 D4 t0 (d_tcp s').
Proof.
  induction h as [|x h IH]; intros s s' T S6 S4 D4 t0 Sd F Ti P H0 Lb H St; cbn [live] in H; [injection H as <-; exact St|]. unbind H s1 E. apply Forall_cons_iff in F, Lb. destruct F as [F1 F2]. destruct Lb as [L1 L2].
  destruct (occur_ord _ _ _ _ _ Sd F1 Ti P E) as [P1 T1]. pose proof (occur_later _ _ _ Ti) as Hl.
  exact (IH s1 s' (end_time T [x]) _ _ _ _ (sound_occur _ _ _ Sd F1 E) F2 T1 P1 (Z.le_trans _ _ _ H0 Hl) L2 H (occur_est _ _ _ _ _ _ _ _ _ Sd F1 Ti P H0 L1 E St)).
Qed.

(** ** Theorems *)
Lemma connection_est : forall t S6 S4 D4 time, inv [] t -> connection t S6 S4 D4 Established T_EST time false -> est S6 S4 D4 time t.
Proof.
  intros t S6 S4 D4 time I (j & s & b & Hs & Hb & B6 & B4 & U4 & Es & Ek & Et & Ex). apply (est_established _ _ _ _ _ I). exists j, s, b. repeat (split; [assumption|]). split; [|lia].
  destruct (s_stored s); [|reflexivity]. assert (false = true) by (apply Ex; discriminate). discriminate.
Qed.
Lemma est_connection : forall t S6 S4 D4 t0, inv [] t -> est S6 S4 D4 t0 t -> exists time, t0 <= time /\ connection t S6 S4 D4 Established T_EST time false.
Proof.
  intros t S6 S4 D4 t0 I E. apply (est_established _ _ _ _ _ I) in E. destruct E as (j & s & b & Hs & Hb & B6 & B4 & U4 & Es & Ek & Ex & Et). exists (s_time s). split; [exact Et|]. exists j, s, b. rewrite Ex. repeat (split; [assumption|]). split; [reflexivity|]. intuition congruence.
Qed.

(** At any time of a translator's life a connection is established, and last heard of
    at [time].  Whatever then happens but what ends it, it is established. *)
Theorem C94_stays : forall h s S6 S4 D4 time h' s', Forall fair h -> on_time 0 h -> live init_db h = Ok s ->
  connection (d_tcp s) S6 S4 D4 Established T_EST time false ->
  Forall fair h' -> on_time (end_time 0 h) h' -> Forall (no_end S6 S4 D4 time) h' -> live s h' = Ok s' ->
  exists time', time <= time' /\ connection (d_tcp s') S6 S4 D4 Established T_EST time' false.
Proof.
  intros h s S6 S4 D4 time h' s' F Ti H C F' Ti' Ne H'. pose proof (live_sound _ _ _ sound_init F H) as Sd. pose proof (live_sound _ _ _ Sd F' H') as Sd'.
  pose proof (live_punctual _ _ _ _ sound_init F Ti punctual_init H) as P.
  destruct (reach_inv _ _ (reachable_table s TCP (proj1 Sd) ltac:(discriminate))) as [I _]. destruct (reach_inv _ _ (reachable_table s' TCP (proj1 Sd') ltac:(discriminate))) as [I' _].
  assert (Ht : time <= end_time 0 h). { pose proof C as (j & u & b & Hs & _ & _ & _ & _ & _ & _ & Et & _). rewrite <- Et. apply (o_max _ _ (P TCP ltac:(discriminate)) j u Hs). }
  apply (est_connection _ _ _ _ _ I'). exact (live_est h' s s' _ S6 S4 D4 time Sd F' Ti' P Ht Ne H' (connection_est _ _ _ _ _ I C)).
Qed.
Print Assumptions C94_stays.

(** Each segment of it, from either side, but those with FIN or RST, starts the time
    anew.  Missing: what is missing in C92. *)
Lemma open_driven : forall hr f m up sg now S6 S4 D4 time t', flags_of f m up sg -> ~ closing_flag m up -> driven hr sg now S6 S4 D4 Established T_EST time false t' ->
  connection t' S6 S4 D4 Established T_EST now false.
Proof.
  intros hr f m up sg now S6 S4 D4 time t' Fl N (q' & l & Ru & C). pose proof (open_flags _ _ _ _ Fl N) as [N1 N2]. inversion Ru as [| | | | |g0 X Y|g0 X Y|g0 X| | | | | | | | | |]; subst; unfold fin, rst in *; try congruence. exact C.
Qed.
Theorem C94_renewed4_partial : forall g better n w s m lin up pay S6 S4 D4 time r s' evs,
  reachable_db s -> pool6_ok g -> Forall is_u8 m -> (lin <= length m)%nat ->
  packet4 m (oct m 9) up pay -> fr4_offset m 0 = 0 -> talk4 m up TCP D4 S4 -> 5 <= oct m (up + 12) / 16 ->
  pool4db_contains (g_pool4 g) (n_ifas n) TCP (fst S4) (snd S4) = Ok true -> ~ In false (n_al n) ->
  connection (d_tcp s) S6 S4 D4 Established T_EST time false -> ~ closing_flag m up ->
  core4 g better n w s true m lin = Ok (r, s', evs) ->
  went_on r /\ connection (d_tcp s') S6 S4 D4 Established T_EST (n_now n) false.
Proof.
  intros g better n w s m lin up pay S6 S4 D4 time r s' evs R P6 F L PK FO TK DO Hp Al C N H.
  destruct (C92_4_partial g better n w s m lin up pay S6 S4 D4 _ _ _ _ r s' evs R P6 F L PK FO TK DO Hp Al C H) as (sg & Fl & _ & _ & [(_ & (X & _) & _)|(Wo & _ & Dr)]); [discriminate|].
  split; [exact Wo|]. exact (open_driven _ _ _ _ _ _ _ _ _ _ _ Fl N Dr).
Qed.
Print Assumptions C94_renewed4_partial.
Theorem C94_renewed6_partial : forall g better n n2 nm w w2 s m lin hs p up pay S6 S4 D6 D4 d time r s' evs,
  reachable_db s -> usable4 g n -> Forall is_u8 m -> (lin <= length m)%nat ->
  packet6 m hs p up pay -> first_piece m hs -> talk6 m p up TCP S6 D6 -> 5 <= oct m (up + 12) / 16 ->
  prefix6_contains (g_pool6 g) (fst S6) = false -> rfc6052_6to4 (g_pool6 g) (fst D6) = Some (fst D4) -> snd D6 = snd D4 ->
  mask_domain_find (g_pool4 g) TCP (n_mark n) (n_hash n) (n_eph n) (n_route n) (n_kro n) = Ok (Domain d) ->
  (d_dynamic d = true -> mask_domain_matches d (fst S4) (snd S4) = true) ->
  pool4db_contains (g_pool4 g) (n_ifas n) TCP (fst D4) (snd D4) = Ok false -> ~ In false (n_al n) ->
  connection (d_tcp s) S6 S4 D4 Established T_EST time false -> ~ closing_flag m up ->
  core6 g better n n2 nm w w2 s true m lin = Ok (r, s', evs) ->
  went_on r /\ connection (d_tcp s') S6 S4 D4 Established T_EST (n_now n) false.
Proof.
  intros g better n n2 nm w w2 s m lin hs p up pay S6 S4 D6 D4 d time r s' evs R U F L PK FP TK DO N6 E64 Ep Em Hd Hh Al C N H.
  destruct (C92_6_partial g better n n2 nm w w2 s m lin hs p up pay S6 S4 D6 D4 d _ _ _ _ r s' evs R U F L PK FP TK DO N6 E64 Ep Em Hd Hh Al C H) as (sg & Fl & _ & _ & Wo & Dr).
  split; [exact Wo|]. exact (open_driven _ _ _ _ _ _ _ _ _ _ _ Fl N Dr).
Qed.
Print Assumptions C94_renewed6_partial.

(** And what the other side sends on it is delivered to the node, from the address
    which the node writes to.  Missing: what C86 leaves out. *)
Theorem C94_delivered_partial : forall h s S6 S4 D4 time h' s' g better n w m lin up pay, Forall fair h -> on_time 0 h -> live init_db h = Ok s ->
  connection (d_tcp s) S6 S4 D4 Established T_EST time false ->
  Forall fair h' -> on_time (end_time 0 h) h' -> Forall (no_end S6 S4 D4 time) h' -> live s h' = Ok s' ->
  pool6_ok g -> world46 w up -> Forall is_u8 m -> (lin <= length m)%nat ->
  packet4 m 6 up pay -> fr4_offset m 0 = 0 -> talk4 m up TCP D4 S4 -> 5 <= oct m (up + 12) / 16 ->
  (20 <= up)%nat -> options m up 20 -> Z.of_nat (length m - up) <= 65515 ->
  pool4db_contains (g_pool4 g) (n_ifas n) TCP (fst S4) (snd S4) = Ok true -> ~ In false (n_al n) ->
  exists a6 r s'' evs, rfc6052_4to6 (g_pool6 g) (fst D4) = Some a6 /\ core4 g better n w s' true m lin = Ok (r, s'', evs) /\
    match r with
    | Packets6 outs => exists seg', sent6 (tos_of (y_reset w) 0 (oct m 1)) (oct m 8 - 1) a6 (fst S6) 6 (word m 4) (fr4_more m 0) 0 seg' outs
        /\ ends 58 [128; 129] seg' 6 0 TCP (snd D4) (snd S6)
        /\ segment46 (y_sum w = CS_PARTIAL) (Some (snd D4, snd S6)) (fst D4) (fst S4) a6 (fst S6) 6 (skipn up m) seg'
    | Untranslated x => (exists i, In x [XIcmp J46_TTL E_TTL i; XIcmp J46_SRC_ROUTE E_SRC_ROUTE i; XIcmp J_PKT_TOO_BIG E_FRAG_NEEDED i]) \/ (x = XDrop J46_BAD_MTU /\ Z.min (y_mtu w) (y_lim w) < 1280)
    | _ => False
    end.
Proof.
  intros h s S6 S4 D4 time h' s' g better n w m lin up pay Fh Ti Lh C Fh' Ti' Ne Lh' P6 W F L PK FO TK DO U Op LEN Hp Al.
  destruct (C94_stays h s S6 S4 D4 time h' s' Fh Ti Lh C Fh' Ti' Ne Lh') as (time' & _ & j & u & b & Hs & Hb & B6 & B4 & U4 & Es & Ek & Et & Ex).
  destruct (sound_typed _ (live_sound _ _ _ (live_sound _ _ _ sound_init Fh Lh) Fh' Lh')) as [R Ty].
  assert (P9 : oct m 9 = 6). { destruct TK as (_ & _ & [(X & _)|[(_ & X & _)|(_ & _ & X & _)]]); congruence. }
  rewrite <- P9 in PK. assert (X : exists a6 r s'' evs, _) by exact (C86_back_partial g better n w s' m lin up pay TCP S6 S4 D4 R Ty P6 W F L PK FO TK (fun _ => DO) U Op LEN
    ltac:(exists (s_dst6 u), j, u, b; auto 10) ltac:(intros _; exists j, u, b; repeat (split; [assumption|]); destruct (s_stored u); [assert (false = true) by (apply Ex; discriminate); discriminate|reflexivity]) Hp Al).
  destruct X as (a6 & r & s2 & evs & Ea & Ec & Hr). exists a6, r, s2, evs. split; [exact Ea|]. split; [exact Ec|]. cbv zeta in Hr. rewrite P9 in Hr. change (proto46 6) with 6 in Hr. destruct r; try exact Hr.
  - destruct Hr as (_ & _ & _ & _ & _ & seg & H1 & H2 & H3 & _). exists seg. auto.
  - destruct Hr as [(-> & _)|[(-> & _)|[(i & -> & _)|(-> & X)]]]; [left; eexists; cbn; eauto|left; eexists; cbn; eauto|left; eexists; cbn; eauto|right; auto].
Qed.
Print Assumptions C94_delivered_partial.

(** ** Cases *)
(** The connection of C92's cases is opened at 0 and answered at 5 (milliseconds).
    Then somebody else at the peer's address sends RST, the node sends ACK, another
    mapping is removed, and the table is cleaned as late as promised: 2 hours
    after the answer. *)
Definition handshake : list happening := [From6 nat64 true (world 0) (world 0) true ex_env64 ex_env46 true (seg6 2) 60; From4 nat64 true (world 5) ex_env46 true (seg4 18) 40].
Definition stranger : list Z := firstn 20 (seg4 4) ++ [0;54] ++ skipn 22 (seg4 4).
Definition quiet (last : Z) : list happening :=
  [From4 nat64 true (world 9) ex_env46 true stranger 40; From6 nat64 true (world 10) (world 10) true ex_env64 ex_env46 true (seg6 16) 60; Table conf TCP (ORm (5, 5) (6, 6)); Table conf TCP (OClean last [])].
Example C94_case : Forall fair handshake /\ on_time 0 handshake /\ live init_db handshake = Ok answered /\ connection (d_tcp answered) A6 S4 D4 Established T_EST 5 false
  /\ Forall fair (quiet 7200004) /\ on_time (end_time 0 handshake) (quiet 7200004) /\ Forall (no_end A6 S4 D4 5) (quiet 7200004)
  /\ match live answered (quiet 7200004) with Ok s => connection (d_tcp s) A6 S4 D4 Established T_EST 10 false | _ => False end.
Proof.
  assert (F : forall f, 0 <= f < 256 -> Forall is_u8 (seg6 f)) by (intros f H; apply (seg6_packet f H)). assert (F4 : forall f, 0 <= f < 256 -> Forall is_u8 (seg4 f)) by (intros f H; apply (seg4_packet f H)).
  split. { constructor; [split; [apply F; lia|split; [apply nat64_usable|exact nat64_pool6]]|]. constructor; [apply F4; lia|constructor]. }
  split; [cbn; lia|]. split; [vm_compute; reflexivity|]. split; [exists 0; eexists _, _; vm_compute; repeat split; intuition congruence|].
  split. { constructor; [octets|]. constructor; [split; [apply F; lia|split; [apply nat64_usable|exact nat64_pool6]]|]. repeat constructor; discriminate. }
  split; [cbn; lia|]. split.
  - constructor. { split; [vm_compute; lia|]. intros up pay (_ & _ & Eu & _) (_ & _ & T). assert (up = 20%nat) as -> by (rewrite Eu; vm_compute; reflexivity). exfalso. destruct T as [(_ & _ & X & _)|[(_ & X & _)|(_ & _ & X & _)]]; vm_compute in X; discriminate X. }
    constructor. { split; [intros d E _; vm_compute in E; injection E as <-; vm_compute; reflexivity|]. split; [vm_compute; lia|]. intros hs up pay A B a PK _ _ X. exfalso.
      destruct (seg6_packet 16 ltac:(lia)) as (_ & PK' & _). pose proof PK as (_ & C & _). pose proof PK' as (_ & C' & _). destruct (chain_det _ _ _ _ _ _ C _ _ _ C') as (_ & _ & Eu). subst up. destruct X as [X|X]; vm_compute in X; discriminate X. }
    constructor. { intros _. split; [intros [X _]; vm_compute in X; discriminate X|]. split; [intros []|exact Logic.I]. }
    constructor; [|constructor]. intros _. split; [intros []|]. split; [intros []|]. split; [vm_compute; repeat split; congruence|]. vm_compute. split; reflexivity.
  - vm_compute. exists 0; eexists _, _; vm_compute; repeat split; intuition congruence.
Qed.
(** The last moment and the next, without the ACK: the translator then asks the peer
    whether it is still there (a probe), and waits for it in state TRANS. *)
Example C94_late_case : match live answered [Table conf TCP (OClean 7200004 [])], live answered [Table conf TCP (OClean 7200005 [])] with
  | Ok s, Ok s' => connection (d_tcp s) A6 S4 D4 Established T_EST 5 false /\ connection (d_tcp s') A6 S4 D4 Trans T_TRANS 7200005 false
      /\ no_end A6 S4 D4 5 (Table conf TCP (OClean 7200004 [])) /\ ~ no_end A6 S4 D4 5 (Table conf TCP (OClean 7200005 []))
  | _, _ => False
  end.
Proof.
  destruct (live answered [Table conf TCP (OClean 7200004 [])]) as [s| |] eqn:E; [|vm_compute in E; discriminate..].
  destruct (live answered [Table conf TCP (OClean 7200005 [])]) as [s'| |] eqn:E'; [|vm_compute in E'; discriminate..].
  vm_compute in E. injection E as <-. vm_compute in E'. injection E' as <-. split; [|split; [|split]].
  - exists 0; eexists _, _; vm_compute; repeat split; intuition congruence.
  - exists 0; eexists _, _; vm_compute; repeat split; intuition congruence.
  - intros _. split; [intros []|]. split; [intros []|]. split; [vm_compute; repeat split; congruence|]. vm_compute. split; reflexivity.
  - intros X. destruct (X eq_refl) as (_ & _ & _ & _ & Y). vm_compute in Y. discriminate Y.
Qed.
