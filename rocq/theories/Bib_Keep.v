(** Sessions are kept for as long as the configuration promises: tables and their
    histories. *)
Require Import Verif.Base Verif.Addr_Model Verif.Addr_Spec Verif.Rtrie_Model Verif.Pool4_Model Verif.Pool4_Spec Verif.Fsm_Model Verif.Bib_Model
  Verif.Rbtree_Model Verif.Rbtree_Properties Verif.Bib_Inv Verif.Bib_Steps Verif.Bib_Fate Verif.Bib_Find Verif.Bib_Add Verif.Bib_Ops Verif.Bib_Hist Verif.Bib_Time
  Verif.Bib_Spec Verif.Bib_Properties Verif.Bib_Filter Verif.Bib_Life.
Local Ltac Zify.zify_post_hook ::= idtac.

(** ** What is claimed *)
(** The node at [S6] has [S4], and talks to [D4]; the last that was seen of that is
    not older than [t0], and the session is not one of those that wait for the
    answer to an IPv4 node's SYN (which have 6 seconds and a stored packet). *)
Definition standing (p : proto) (t : tb) (S6 S4 D4 : ta) (t0 : Z) : Prop :=
  exists j s b, sess t j = Some s /\ bibs t (s_bib s) = Some b /\ b_src6 b = S6 /\ b_src4 b = S4 /\ s_dst4 s = D4
    /\ (s_exp s = T_EST \/ p = TCP /\ s_exp s = T_TRANS) /\ (p = TCP -> s_stored s = None /\ valid_state (s_state s)) /\ t0 <= s_time s.
(** How long a conversation may be silent, in milliseconds. *)
Definition promise (c : cfg) (p : proto) : Z :=
  match p with UDP => c_udp c | ICMP => c_icmp c | TCP => Z.min (c_tcp_est c) (c_tcp_trans c) | OTHER => 0 end.
(** Nobody asks for the removal of the mapping; pool4, if empty (the addresses of
    the node are used then), has not changed underneath it; the table is not cleaned
    later than promised; and what other instances tell about the session is not
    older than [t0]. *)
Definition spares (p : proto) (S6 S4 D4 : ta) (t0 : Z) (c : cfg) (o : op) : Prop :=
  ~ asked_to_remove o S6 S4 /\ ~ outgrown o S6 S4 /\
  match o with
  | OClean now _ => sane c /\ now < 2 ^ 62 /\ now * c_hz c < t0 * c_hz c + promise c p
  | OSync e _ _ => e_src6 e = S6 -> e_src4 e = S4 -> e_dst4 e = D4 -> (e_timer e = T_EST \/ p = TCP /\ e_timer e = T_TRANS) /\ (p = TCP -> valid_state (e_state e)) /\ t0 <= e_time e
  | _ => True
  end.

(** ** Proofs *)
Definition stands (p : proto) (S6 S4 D4 : ta) (t0 : Z) (t : tb) : Prop :=
  exists j s b, In (s_bib s) (tree4 t) /\ sess t j = Some s /\ bibs t (s_bib s) = Some b /\ b_src6 b = S6 /\ b_src4 b = S4 /\ s_dst4 s = D4
    /\ (s_exp s = T_EST \/ p = TCP /\ s_exp s = T_TRANS) /\ (p = TCP -> s_stored s = None /\ valid_state (s_state s)) /\ t0 <= s_time s.
Lemma stands_standing : forall p t S6 S4 D4 t0, inv [] t -> standing p t S6 S4 D4 t0 <-> stands p S6 S4 D4 t0 t.
Proof.
  intros p t S6 S4 D4 t0 I. split; intros (j & s & b & H).
  - exists j, s, b. split; [|exact H]. destruct H as (_ & Hb & _). apply (in4 _ _ I). split; [congruence|intros []].
  - exists j, s, b. apply H.
Qed.

Lemma same_bad : forall k, same_timer T_BAD k = true -> k = T_BAD.
Proof. intros []; cbn; congruence. Qed.
Lemma stands_kept : forall p S6 S4 D4 t0 t t' i s s', sess t i = Some s -> kept t t' i s' -> s_bib s' = s_bib s -> s_dst6 s' = s_dst6 s -> s_dst4 s' = s_dst4 s ->
  (forall b, bibs t (s_bib s) = Some b -> b_src6 b = S6 -> b_src4 b = S4 -> s_dst4 s = D4 ->
     (s_exp s = T_EST \/ p = TCP /\ s_exp s = T_TRANS) -> (p = TCP -> s_stored s = None /\ valid_state (s_state s)) -> t0 <= s_time s ->
     (s_exp s' = T_EST \/ p = TCP /\ s_exp s' = T_TRANS) /\ (p = TCP -> s_stored s' = None /\ valid_state (s_state s')) /\ t0 <= s_time s') ->
  stands p S6 S4 D4 t0 t -> stands p S6 S4 D4 t0 t'.
Proof.
  intros p S6 S4 D4 t0 t t' i s s' Hs K Eb E6 E4 X (j & u & b & H4 & Hj & Hb & B6 & B4 & U4 & Ue & Us & Ut).
  destruct (Z.eqb_spec j i) as [->|N].
  - assert (u = s) by congruence. subst u. exists i, s', b. rewrite (k_t4 _ _ _ _ K), (k_sess _ _ _ _ K), (k_bibs _ _ _ _ K), Z.eqb_refl, Eb, E4.
    specialize (X b Hb B6 B4 U4 Ue Us Ut). auto 20.
  - exists j, u, b. rewrite (k_t4 _ _ _ _ K), (k_sess _ _ _ _ K), (k_bibs _ _ _ _ K). rewrite (proj2 (Z.eqb_neq _ _) N). auto 20.
Qed.

Lemma stands_fate : forall p S6 S4 D4 t0 D t t' i s b e f now, inv D t -> live D t i s -> bibs t (s_bib s) = Some b -> fate_done t t' i s e f now -> f <> FATE_RM -> t0 <= now ->
  (b_src6 b = S6 -> b_src4 b = S4 -> s_dst4 s = D4 -> (p = TCP -> valid_state (s_state s)) -> t0 <= s_time s -> (p = TCP -> valid_state (e_state e)) /\ t0 <= e_time e /\
     match f with
     | FATE_TIMER_TRANS | FATE_PROBE => p = TCP
     | FATE_TIMER_SLOW => e_timer e = T_EST \/ p = TCP /\ e_timer e = T_TRANS
     | _ => True
     end) ->
  stands p S6 S4 D4 t0 t -> stands p S6 S4 D4 t0 t'.
Proof.
  intros p S6 S4 D4 t0 D t t' i s b e f now I L Hb F N Hn X St. destruct L as [Hs _].
  assert (G : forall s', kept t t' i s' -> s_bib s' = s_bib s -> s_dst6 s' = s_dst6 s -> s_dst4 s' = s_dst4 s -> (s_stored s = None -> s_stored s' = None) -> s_state s' = e_state e ->
    ((p = TCP -> valid_state (e_state e)) /\ t0 <= e_time e /\ match f with FATE_TIMER_TRANS | FATE_PROBE => p = TCP | FATE_TIMER_SLOW => e_timer e = T_EST \/ p = TCP /\ e_timer e = T_TRANS | _ => True end ->
      (s_exp s = T_EST \/ p = TCP /\ s_exp s = T_TRANS) -> (s_exp s' = T_EST \/ p = TCP /\ s_exp s' = T_TRANS) /\ t0 <= s_time s') -> stands p S6 S4 D4 t0 t').
  { intros s' K E1 E2 E3 E4 E5 Y. refine (stands_kept p S6 S4 D4 t0 t t' i s s' Hs K E1 E2 E3 _ St). intros b0 Hb0 B6 B4 U4 Ue Us Ut. assert (b0 = b) by congruence. subst b0.
    specialize (X B6 B4 U4 (fun Z => proj2 (Us Z)) Ut). destruct (Y X Ue) as [Y1 Y2]. split; [exact Y1|]. split; [|exact Y2]. intros Z. split; [apply E4, Us, Z|]. rewrite E5. exact (proj1 X Z). }
  assert (Hst : forall x : bool, s_stored s = None -> (if x then s_stored s else None) = None) by (intros [|] Y; [exact Y|reflexivity]).
  unfold fate_done in F. destruct f; try congruence.
  1-5: destruct F as [K _]; apply (G _ K); try reflexivity; try (apply Hst); cbn [after s_stored s_exp s_time]; try (intros _; reflexivity); intros (Y1 & Y2 & Y3) Y; auto.
  destruct (same_timer T_BAD (e_timer e)) eqn:Eb.
  - destruct F as [K _]. apply (G _ K); try reflexivity; try (apply Hst). cbn [after s_exp s_time]. intros (Y1 & Y2 & Y3) Y. auto.
  - destruct F as [K _]. apply (G _ K); try reflexivity; try (apply Hst). cbn [after s_exp s_time]. intros (Y1 & Y2 & Y3) Y. auto.
Qed.

Lemma stands_gone : forall p S6 S4 D4 t0 D t t' i s b, inv D t -> live D t i s -> bibs t (s_bib s) = Some b -> gone t t' i (s_bib s) -> p = TCP /\ ~ valid_state (s_state s) ->
  stands p S6 S4 D4 t0 t -> stands p S6 S4 D4 t0 t'.
Proof.
  intros p S6 S4 D4 t0 D t t' i s b I [Hs _] Hb G N (j & u & b' & H4 & Hj & Hb' & B6 & B4 & U4 & Ue & Us & Ut).
  assert (Nj : j <> i) by (intros ->; destruct N as [N1 N2]; apply N2; assert (u = s) by congruence; subst u; apply Us, N1). assert (Hj' : sess t' j = Some u) by (rewrite (g_sess _ _ _ _ G), (proj2 (Z.eqb_neq _ _) Nj); exact Hj).
  destruct (Z.eq_dec (s_bib u) (s_bib s)) as [E|E].
  - rewrite E in Hb'. assert (b' = b) by congruence. subst b'. destruct (g_bib _ _ _ _ G _ Hb) as [(C1 & C2 & _)|(_ & _ & _ & _ & C)].
    + exists j, u, (with_sess b (remove_id i (b_sess b))). rewrite C2, E, C1. rewrite E in H4. auto 20.
    + exfalso. assert (X : In j (remove_id i (b_sess b))) by (apply remove_in; split; [apply (ibs _ _ I _ _ Hb); eauto|exact Nj]). rewrite C in X. destruct X.
  - exists j, u, b'. rewrite (g_bibs _ _ _ _ G) by exact E. split; [|auto 20]. destruct (g_bib _ _ _ _ G _ Hb) as [(_ & C2 & _)|(_ & C2 & _)]; rewrite C2; [exact H4|apply remove_in; auto].
Qed.

Lemma stands_tsm : forall p S6 S4 D4 t0 D c g now t t' i s b, p = TCP -> inv D t -> live D t i s -> bibs t (s_bib s) = Some b ->
  (let r := tcp_state_machine (c_handle_rst c) g (entry_of c p b s) in fate_done t t' i s (fst r) (snd r) now) -> t0 <= now ->
  stands p S6 S4 D4 t0 t -> stands p S6 S4 D4 t0 t'.
Proof.
  intros p S6 S4 D4 t0 D c g now t t' i s b -> I L Hb F Hn St. cbv zeta in F.
  assert (C : {snd (tcp_state_machine (c_handle_rst c) g (entry_of c TCP b s)) = FATE_RM} + {snd (tcp_state_machine (c_handle_rst c) g (entry_of c TCP b s)) <> FATE_RM}) by (destruct (snd (tcp_state_machine (c_handle_rst c) g (entry_of c TCP b s))); (left; reflexivity) || (right; discriminate)).
  destruct C as [C|C].
  - rewrite C in F. refine (stands_gone _ _ _ _ _ _ _ _ _ _ _ I L Hb F _ St). split; [reflexivity|]. intros V. exact (proj1 (tsm_valid (c_handle_rst c) g (entry_of c TCP b s) V) C).
  - destruct (tsm_time (c_handle_rst c) g (entry_of c TCP b s)) as [V3 V4]. pose proof (tsm_fates (c_handle_rst c) g (entry_of c TCP b s)) as V5.
    refine (stands_fate _ _ _ _ _ _ _ _ _ _ _ _ _ _ I L Hb F C Hn _ St). intros _ _ _ V Ht. rewrite V3. split; [intros _; exact (proj2 (tsm_valid _ _ (entry_of c TCP b s) (V eq_refl)))|]. split; [exact Ht|]. destruct (snd _); auto; contradiction.
Qed.

Lemma stands_closed : forall c p o S6 S4 D4 t0, spares p S6 S4 D4 t0 c o -> match o with OClean _ _ => False | _ => True end -> (timed o = true -> t0 <= op_now o) ->
  closed c p o (stands p S6 S4 D4 t0).
Proof.
  intros c p o S6 S4 D4 t0 (Na & Ng & Sp) Nc Hn. constructor.
  - intros D t t' i s b r I I' L Hb R F St.
    destruct o; cbn [reacts] in R; try contradiction; cbn [timed op_now] in *; specialize (Hn eq_refl).
    + subst r. refine (stands_fate _ _ _ _ _ _ _ _ _ _ _ _ _ _ I L Hb F ltac:(discriminate) Hn _ St). cbn. auto.
    + subst r. refine (stands_fate _ _ _ _ _ _ _ _ _ _ _ _ _ _ I L Hb F ltac:(discriminate) Hn _ St). cbn. auto.
    + destruct R as [Ep ->]. exact (stands_tsm _ _ _ _ _ _ _ _ _ _ _ _ _ _ Ep I L Hb F Hn St).
    + destruct R as [Ep ->]. exact (stands_tsm _ _ _ _ _ _ _ _ _ _ _ _ _ _ Ep I L Hb F Hn St).
    + subst r. unfold collision_cb in F. destruct (session_equals (entry_of c p b s) e) eqn:Eq.
      * cbn [fst snd] in F. refine (stands_fate _ _ _ _ _ _ _ _ _ _ _ _ _ _ I L Hb F ltac:(discriminate) Hn _ St). cbn [e_state e_time e_timer]. intros B6 B4 U4 V Ht.
        unfold session_equals in Eq. rewrite !andb_true_iff in Eq. destruct Eq as [[[Q1 Q2] Q3] Q4]. apply ta_eqb_eq in Q1, Q2, Q3, Q4. cbn in Q1, Q2, Q3, Q4.
        destruct Sp as (P1 & P2 & P3); try congruence. auto.
      * cbn [fst snd] in F. refine (stands_fate _ _ _ _ _ _ _ _ _ _ _ _ _ _ I L Hb F ltac:(discriminate) Hn _ St). cbn. auto.
  - intros D t t' sid s b' I I' A _ _ _ (j & u & b & H4 & Hj & Hb & B6 & B4 & H). assert (Nj : j <> sid) by (intros ->; pose proof (a_s0 _ _ _ _ _ A); congruence).
    assert (Hj' : sess t' j = Some u) by (rewrite (a_sess _ _ _ _ _ A), (proj2 (Z.eqb_neq _ _) Nj); exact Hj).
    assert (H4' : In (s_bib u) (tree4 t')) by (apply (a_t4 _ _ _ _ _ A); left; exact H4).
    destruct (Z.eq_dec (s_bib u) (s_bib s)) as [E|E].
    + pose proof (a_b _ _ _ _ _ A) as Ab. rewrite <- E, Hb in Ab. destruct Ab as (_ & A6 & A4 & _). exists j, u, b'. rewrite (a_bibs _ _ _ _ _ A). split; [exact H4'|]. split; [exact Hj'|]. split; [rewrite E, Z.eqb_refl; reflexivity|]. split; [congruence|]. split; [congruence|exact H].
    + exists j, u, b. rewrite (a_bibs _ _ _ _ _ A), (proj2 (Z.eqb_neq _ _) E). auto 10.
  - intros t t1 w masks bdl evs I Pr Hd (j & u & b & H4 & Hj & Hb & B6 & B4 & H). exists j, u, b. rewrite (p_bibs _ _ _ _ _ _ Pr), (p_sess _ _ _ _ _ _ Pr), (p_t4 _ _ _ _ _ _ Pr). split; [|auto 10]. apply drop_in. split; [exact H4|].
    destruct Hd as [->|(d & bid & b0 & Ha & -> & Hb0 & Hi)]; [intros []|]. intros [X|[]]. assert (b0 = b) by congruence. subst b0. apply Ng. unfold issue216_needed in Hi. apply andb_true_iff in Hi. destruct Hi as [Hi1 Hi2]. apply negb_true_iff in Hi2.
    destruct o; cbn [adds6 outgrown] in *; try discriminate; injection Ha as -> ->; rewrite <- B6, <- B4; auto.
  - intros D t t' I Hb' Hs' Ht _ _ (j & u & b & H4 & Hj & Hb & H). assert (ND : ~ In (s_bib u) D) by (apply (in4 _ _ I) in H4; apply H4).
    exists j, u, b. rewrite Ht. split; [exact H4|]. split; [apply Hs'; auto|]. split; [|exact H]. rewrite Hb'. destruct (mem_id (s_bib u) D) eqn:Em; [apply mem_in in Em; contradiction|exact Hb].
  - intros t t' l I R Hl (j & u & b & H4 & Hj & Hb & B6 & B4 & H). assert (Nx : ~ In (s_bib u) l).
    { intros C. apply Na. specialize (Hl _ C). rewrite (key6_of _ _ _ Hb), (key4_of _ _ _ Hb), B6, B4 in Hl. exact Hl. }
    exists j, u, b. split; [rewrite (r_t4 _ _ _ R); apply drop_in; auto|]. split; [apply (r_sess _ _ _ R); auto|]. rewrite (r_bibs _ _ _ R). destruct (mem_id (s_bib u) l) eqn:Em; [apply mem_in in Em; contradiction|auto].
  - intros t q n H _. exact H.
  - intros t t' a6 a4 evs I St (j & u & b & H4 & Hj & Hb & B6 & B4 & H). inversion St as [|i b0 H1 H2 H3 H5 Et H6| |i H1 H2 H3 H5 H6 H7 H8 H9 H10 H11].
    + rewrite Et. exists j, u. cbn [put_bib set_bibs bibs tree4 sess]. unfold upd. destruct (Z.eqb_spec (s_bib u) i) as [E|N].
      * assert (b0 = b) by congruence. subst b0. eexists. split; [exact H4|]. split; [exact Hj|]. split; [reflexivity|]. cbn [b_src6 b_src4]. split; [congruence|]. split; [congruence|exact H].
      * exists b. auto 10.
    + exists j, u, b. split; [apply H5; right; exact H4|]. rewrite H2, H3. unfold upd. destruct (Z.eqb_spec (s_bib u) i) as [E|N]; [congruence|auto 10].
Qed.

Lemma clean_maps : forall c p t now al t' evs, inv [] t -> clean_table c p t now al = Ok (t', evs) -> inv [] t' /\ forall x s6 s4 st, mapped t' x s6 s4 st -> mapped t x s6 s4 st.
Proof.
  intros c p t now al t' evs I E. destruct (clean_table_ok c p now (fun u => forall x s6 s4 st, mapped u x s6 s4 st -> mapped t x s6 s4 st)) with (t := t) (al := al) as (t1 & e1 & E1 & I1 & _ & H & _); auto.
  - intros k u i s b u' _ _ _ Hb H _ F x s6 s4 st M. apply H. exact (proj1 (fate_maps _ _ _ _ _ _ _ _ F Hb) _ _ _ _ M).
  - assert (t1 = t') by congruence. subst t1. auto.
Qed.
Lemma stands_clean : forall c p t now al t' evs S6 S4 D4 t0, sane c -> now < 2 ^ 62 -> now * c_hz c < t0 * c_hz c + promise c p -> p <> OTHER ->
  inv [] t -> ord now t -> clean_table c p t now al = Ok (t', evs) -> stands p S6 S4 D4 t0 t -> stands p S6 S4 D4 t0 t'.
Proof.
  intros c p t now al t' evs S6 S4 D4 t0 Sa Hn Hp No I O E (j & u & b & H4 & Hj & Hb & B6 & B4 & H).
  destruct (clean_exact c p t now al (sane_cfg c Sa) Hn I O) as (t1 & e1 & E1 & I1 & _ & _ & _ & Hk). assert (t1 = t') by congruence. subst t1.
  assert (X : ~ elapsed c p u now).
  { intros X. apply (expired_elapsed c p u now Sa) in X. unfold expired in X. destruct H as (_ & Ue & _ & Ut). destruct Sa as (Hz & _).
    assert (promise c p <= lifetime c p u). { unfold promise, lifetime. destruct Ue as [Eu|(Ep & Eu)]; rewrite Eu; destruct p; try lia; congruence. }
    nia. }
  specialize (Hk j u Hj X). destruct (clean_maps _ _ _ _ _ _ _ I E) as [_ M]. pose proof (isb _ _ I1 _ _ Hk) as Nb. destruct (bibs t' (s_bib u)) as [b'|] eqn:Hb'; [|congruence].
  assert (Hin : In (s_bib u) (tree4 t')) by (apply (in4 _ _ I1); split; [congruence|intros []]).
  destruct (M (s_bib u) (b_src6 b') (b_src4 b') (b_static b')) as (_ & b0 & Hb0 & F6 & F4 & _); [split; [exact Hin|eauto]|]. assert (b0 = b) by congruence. subst b0.
  exists j, u, b'. split; [exact Hin|]. split; [exact Hk|]. split; [exact Hb'|]. split; [congruence|]. split; [congruence|exact H].
Qed.

Lemma stands_step : forall c p o T t x t' evs S6 S4 D4 t0, p <> OTHER -> wf_op o -> inv [] t -> ord T t -> t0 <= T -> (timed o = true -> op_now o = T) -> spares p S6 S4 D4 t0 c o ->
  step c p t o = Ok (x, t', evs) -> stands p S6 S4 D4 t0 t -> stands p S6 S4 D4 t0 t'.
Proof.
  intros c p o T t x t' evs S6 S4 D4 t0 No W I O Ht Et Sp E St. destruct o as [| | | | |now al| | | |].
  6: { cbn [step] in E. destruct (clean_table c p t now al) as [[t1 e1]| |] eqn:Ec; cbn [bind] in E; try discriminate. injection E as _ <- _. destruct Sp as (_ & _ & Sa & Hn & Hp). cbn [timed op_now] in Et. rewrite (Et eq_refl) in *.
       exact (stands_clean _ _ _ _ _ _ _ _ _ _ _ Sa Hn Hp No I O Ec St). }
  all: refine (step_P _ _ _ _ _ _ _ _ W (stands_closed _ _ _ _ _ _ _ Sp Logic.I _) I St E); intros Y; rewrite (Et Y); exact Ht.
Qed.
Theorem stands_run : forall p h T t t' evs S6 S4 D4 t0, p <> OTHER -> wf h -> clock T h -> t0 <= T -> inv [] t -> ord T t ->
  (forall c o, In (c, o) h -> spares p S6 S4 D4 t0 c o) -> run p t h = Ok (t', evs) -> stands p S6 S4 D4 t0 t -> stands p S6 S4 D4 t0 t'.
Proof.
  intros p. induction h as [|(c, o) h IH]; intros T t t' evs S6 S4 D4 t0 No W C Ht I O Sp E St; cbn [run clock] in *; [injection E as <- _; exact St|].
  apply Forall_cons_iff in W. destruct W as [W1 W2]. cbn [snd] in W1. destruct (step_ok c p o t W1 I) as [(E1 & _)|(x & t1 & e1 & E1 & [I1 _ _ _ _ _])]; rewrite E1 in E; cbn [bind] in E; [discriminate|].
  destruct (run p t1 h) as [(t2, e2)| |] eqn:E2; cbn [bind fst snd] in E; try discriminate. injection E as <- <-.
  destruct (timed o) eqn:Et.
  - destruct C as (C1 & C2 & C3). assert (O' : ord (op_now o) t) by (eapply ord_mono; eauto). refine (IH (op_now o) t1 t2 e2 S6 S4 D4 t0 No W2 C3 (Z.le_trans _ _ _ Ht C1) I1 _ (fun c' o' Hi => Sp c' o' (or_intror Hi)) E2 _).
    + apply (step_P c p o (ord (op_now o)) t x t1 e1 W1); auto. apply ord_closed; auto.
    + refine (stands_step c p o (op_now o) t x t1 e1 _ _ _ t0 No W1 I O' (Z.le_trans _ _ _ Ht C1) (fun _ => eq_refl) (Sp c o (or_introl eq_refl)) E1 St).
  - refine (IH T t1 t2 e2 S6 S4 D4 t0 No W2 C Ht I1 _ (fun c' o' Hi => Sp c' o' (or_intror Hi)) E2 _).
    + apply (step_P c p o (ord T) t x t1 e1 W1); auto. apply ord_closed; [rewrite Et; discriminate|]. destruct o; try exact Logic.I. discriminate.
    + refine (stands_step c p o T t x t1 e1 _ _ _ _ No W1 I O Ht _ (Sp c o (or_introl eq_refl)) E1 St). rewrite Et. discriminate.
Qed.

(** ** A packet from the IPv6 side makes its session stand *)
Lemma linked_stands : forall c p f k now t2 en t' devs, inv (f_bdl f) t2 -> linked6 c p f k now t2 en -> (k = T_EST \/ p = TCP /\ k = T_TRANS) -> (p = TCP -> valid_state (w_state (f_new f))) -> commit_delete_list t2 (f_bdl f) = Ok (t', devs) ->
  exists e, en = Session e /\ stands p (e_src6 e) (e_src4 e) (e_dst4 e) now t'.
Proof.
  intros c p f k now t2 en t' devs I2 (sid & s & b' & C & ->) Hk Hv Ed. pose proof (c_added _ _ _ _ _ _ _ _ C) as A. pose proof (c_s _ _ _ _ _ _ _ _ C) as Es. pose proof (c_nd _ _ _ _ _ _ _ _ C) as Nd.
  destruct (delete_list_ok _ _ I2) as (t1 & e1 & E1 & I' & _ & Fb & Fs & _ & T4 & _). assert (t1 = t') by congruence. subst t1.
  eexists. split; [reflexivity|]. cbn [entry_of e_src6 e_src4 e_dst6 e_dst4]. exists sid, s, b'.
  assert (Hs : sess t' sid = Some s) by (apply Fs; split; [rewrite (a_sess _ _ _ _ _ A), Z.eqb_refl; reflexivity|exact Nd]).
  assert (Hb : bibs t' (s_bib s) = Some b'). { rewrite Fb. destruct (mem_id (s_bib s) (f_bdl f)) eqn:Em; [apply mem_in in Em; contradiction|]. rewrite (a_bibs _ _ _ _ _ A), Z.eqb_refl. reflexivity. }
  split; [apply (in4 _ _ I'); split; [congruence|intros []]|]. split; [exact Hs|]. split; [exact Hb|]. repeat (split; [reflexivity|]). rewrite Es. cbn [s_exp s_stored s_state s_time]. split; [exact Hk|]. split; [intros Z; split; [reflexivity|exact (Hv Z)]|lia].
Qed.
Lemma add6_stands : forall c p t d out s6 d6 d4 now al en t' evs, p <> TCP -> inv [] t -> offers d out -> bib_add6 c p t d s6 d6 d4 now al = Ok (OK, en, t', evs) ->
  exists e, en = Session e /\ stands p (e_src6 e) (e_src4 e) (e_dst4 e) now t'.
Proof.
  intros c p t d out s6 d6 d4 now al en t' evs Np I O H.
  destruct (bib_add6_ok c p t d s6 d6 d4 now al I (ex_intro _ out O) Np) as [(E & Ha)|(e & en1 & t1 & evs1 & f & t2 & E & F & (devs & Ed & _) & I2 & _ & _ & Hm)]; [congruence|].
  rewrite H in E. injection E as <- <- <- _. destruct (f_sess f) as [sid|] eqn:Ef.
  - destruct Hm as (s & b & L & Eft & Eb & Hb & K & _ & ->). rewrite Eb in *. cbn [commit_delete_list] in Ed. injection Ed as <- _. eexists. split; [reflexivity|]. cbn [entry_of e_src6 e_src4 e_dst6 e_dst4].
    exists sid, (set_timer s now T_EST), b. rewrite (k_sess _ _ _ _ K), Z.eqb_refl, (k_bibs _ _ _ _ K), (k_t4 _ _ _ _ K). cbn [set_timer s_bib s_dst6 s_dst4 s_exp s_stored s_state s_time].
    split; [apply (in4 _ _ I); split; [congruence|intros []]|]. repeat (split; [solve [reflexivity|exact Hb]|]). split; [left; reflexivity|]. split; [congruence|lia].
  - destruct Hm as (_ & Hl). exact (linked_stands _ _ _ _ _ _ _ _ _ I2 Hl (or_introl eq_refl) ltac:(congruence) Ed).
Qed.
(** The first segment of a connection *)
Lemma tcp6_stands : forall c t d out s6 d6 d4 g now al en t' evs, inv [] t -> offers d out -> sg_syn g = true -> (forall n, In n (queue t) -> q_dst6 n <> d6) -> ~ (exists k x, has_session t s6 k x d4) ->
  bib_add_tcp6 c t d s6 d6 d4 g now al = Ok (VContinue, en, t', evs) -> exists e, en = Session e /\ stands TCP (e_src6 e) (e_src4 e) (e_dst4 e) now t'.
Proof.
  intros c t d out s6 d6 d4 g now al en t' evs I O Hg Hq Hn H.
  destruct (bib_add_tcp6_ok c t d s6 d6 d4 g now al I (ex_intro _ out O)) as [(E & Ha)|[(E & B)|(e & v & en1 & t1 & f & t2 & evs2 & devs & E & F & Ed & I2 & _ & _ & Hm)]]; rewrite H in E; try discriminate.
  injection E as <- <- <- _. destruct e as [|x]; [|destruct Hm; discriminate]. destruct (f_sess f) as [sid|] eqn:Ef.
  - exfalso. inversion F as [bid b0 E1 E2 E3 E4 Hb0 Hi0 H6 H2 En Hit|bid sid' Hp E1 E2 E3 E4 U N|Pr E1 E2|x Pr E1 St E2 E3|]; [| |congruence|congruence].
    + rewrite Ef in Hit. destruct Hit as [Hit Kk]. apply nth_error_In in Hit. apply (ibs _ _ I _ _ Hb0) in Hit. destruct Hit as (s0 & Hs0 & Esb). unfold keys in Kk. rewrite Hs0, En in Kk. cbn in Kk. apply Hn. exists (b_src4 b0), (s_dst6 s0), sid, s0, b0. rewrite Esb. auto 10.
    + destruct (u_ex _ _ _ _ _ _ _ _ U) as (t0 & n & b' & _ & _ & _ & Hin & Hd & _). exact (Hq n Hin Hd).
  - rewrite Hg in Hm. destruct Hm as (_ & _ & Hl). refine (linked_stands _ _ _ _ _ _ _ _ _ I2 Hl (or_intror (conj eq_refl eq_refl)) _ Ed). intros _.
    inversion F as [bid b E1 E2 E3 E4 E5 E6 E7 E8 E9|bid sid' Hp E1 E2 E3 E4 U E5|Pr E1 E2 E3 E4 E5 E6 E7|x Pr E1 St E2 E3|]; try congruence.
    + rewrite E9. cbn. unfold valid_state, V6_INIT. lia.
    + rewrite E7. cbn. unfold valid_state, V6_INIT. lia.
    + exfalso. destruct Hl as (sid & s & b' & C & _). pose proof (c_bib _ _ _ _ _ _ _ _ C) as Cb. rewrite E2 in Cb. destruct St as (_ & _ & _ & St). destruct Cb as [_ Cb]. congruence.
Qed.
