(** Established connections are kept as established for as long as the configuration
    promises, if nobody closes them: tables and their histories. *)
Require Import Verif.Base Verif.Addr_Model Verif.Addr_Spec Verif.Rtrie_Model Verif.Pool4_Model Verif.Pool4_Spec Verif.Fsm_Model Verif.Bib_Model
  Verif.Rbtree_Model Verif.Rbtree_Properties Verif.Bib_Inv Verif.Bib_Steps Verif.Bib_Fate Verif.Bib_Find Verif.Bib_Add Verif.Bib_Ops Verif.Bib_Hist Verif.Bib_Time
  Verif.Bib_Spec Verif.Bib_Properties Verif.Bib_Filter Verif.Bib_Life Verif.Bib_Keep.
Local Ltac Zify.zify_post_hook ::= idtac.

(** ** What is claimed *)
(** The connection between the node at [S6], which has [S4], and [D4] is established,
    and the last that was seen of it is not older than [t0]. *)
Definition established (t : tb) (S6 S4 D4 : ta) (t0 : Z) : Prop :=
  exists j s b, sess t j = Some s /\ bibs t (s_bib s) = Some b /\ b_src6 b = S6 /\ b_src4 b = S4 /\ s_dst4 s = D4
    /\ s_state s = ESTABLISHED /\ s_exp s = T_EST /\ s_stored s = None /\ t0 <= s_time s.
Definition open (g : segment) : Prop := sg_fin g = false /\ sg_rst g = false.
(** None of its segments has FIN or RST; nobody asks for the removal of the mapping;
    pool4, if empty, has not changed underneath it; the table is not cleaned later
    than promised; what other instances tell about it is that it is established. *)
Definition lets_run (S6 S4 D4 : ta) (t0 : Z) (c : cfg) (o : op) : Prop :=
  ~ asked_to_remove o S6 S4 /\ ~ outgrown o S6 S4 /\
  match o with
  | OTcp6 _ a _ b g _ _ => a = S6 -> b = D4 -> open g
  | OTcp4 a b _ g _ _ _ => a = S4 -> b = D4 -> open g
  | OClean now _ => sane c /\ now < 2 ^ 62 /\ now * c_hz c < t0 * c_hz c + c_tcp_est c
  | OSync e _ _ => e_src6 e = S6 -> e_src4 e = S4 -> e_dst4 e = D4 -> e_state e = ESTABLISHED /\ e_timer e = T_EST /\ t0 <= e_time e
  | _ => True
  end.

(** ** Proofs *)
Definition fine (t0 : Z) (s : tsess) : Prop := s_state s = ESTABLISHED /\ s_exp s = T_EST /\ s_stored s = None /\ t0 <= s_time s.
Definition est (S6 S4 D4 : ta) (t0 : Z) (t : tb) : Prop :=
  exists j s b, In (s_bib s) (tree4 t) /\ sess t j = Some s /\ bibs t (s_bib s) = Some b /\ b_src6 b = S6 /\ b_src4 b = S4 /\ s_dst4 s = D4 /\ fine t0 s.
Lemma est_established : forall t S6 S4 D4 t0, inv [] t -> established t S6 S4 D4 t0 <-> est S6 S4 D4 t0 t.
Proof.
  intros t S6 S4 D4 t0 I. split; intros (j & s & b & H).
  - exists j, s, b. split; [|exact H]. destruct H as (_ & Hb & _). apply (in4 _ _ I). split; [congruence|intros []].
  - exists j, s, b. apply H.
Qed.
Lemma est_kept : forall S6 S4 D4 t0 t t' i s', kept t t' i s' ->
  (forall s b, sess t i = Some s -> bibs t (s_bib s) = Some b -> b_src6 b = S6 -> b_src4 b = S4 -> s_dst4 s = D4 -> fine t0 s -> s_bib s' = s_bib s /\ s_dst4 s' = s_dst4 s /\ fine t0 s') ->
  est S6 S4 D4 t0 t -> est S6 S4 D4 t0 t'.
Proof.
  intros S6 S4 D4 t0 t t' i s' K X (j & u & b & H4 & Hj & Hb & B6 & B4 & U4 & Fi). destruct (Z.eqb_spec j i) as [->|N].
  - destruct (X u b Hj Hb B6 B4 U4 Fi) as (E1 & E2 & Fi'). exists i, s', b. rewrite (k_t4 _ _ _ _ K), (k_sess _ _ _ _ K), (k_bibs _ _ _ _ K), Z.eqb_refl, E1, E2. auto 20.
  - exists j, u, b. rewrite (k_t4 _ _ _ _ K), (k_sess _ _ _ _ K), (k_bibs _ _ _ _ K). rewrite (proj2 (Z.eqb_neq _ _) N). auto 20.
Qed.
Lemma est_gone : forall S6 S4 D4 t0 D t t' i s b, inv D t -> sess t i = Some s -> bibs t (s_bib s) = Some b -> gone t t' i (s_bib s) -> s_state s <> ESTABLISHED -> est S6 S4 D4 t0 t -> est S6 S4 D4 t0 t'.
Proof.
  intros S6 S4 D4 t0 D t t' i s b I Hs Hb G N (j & u & b' & H4 & Hj & Hb' & B6 & B4 & U4 & Fi).
  assert (Nj : j <> i) by (intros ->; apply N; assert (u = s) by congruence; subst u; apply Fi). assert (Hj' : sess t' j = Some u) by (rewrite (g_sess _ _ _ _ G), (proj2 (Z.eqb_neq _ _) Nj); exact Hj).
  destruct (Z.eq_dec (s_bib u) (s_bib s)) as [E|E].
  - rewrite E in Hb'. assert (b' = b) by congruence. subst b'. destruct (g_bib _ _ _ _ G _ Hb) as [(C1 & C2 & _)|(_ & _ & _ & _ & C)].
    + exists j, u, (with_sess b (remove_id i (b_sess b))). rewrite C2, E, C1. rewrite E in H4. auto 20.
    + exfalso. assert (X : In j (remove_id i (b_sess b))) by (apply remove_in; split; [apply (ibs _ _ I _ _ Hb); eauto|exact Nj]). rewrite C in X. destruct X.
  - exists j, u, b'. rewrite (g_bibs _ _ _ _ G) by exact E. split; [|auto 20]. destruct (g_bib _ _ _ _ G _ Hb) as [(_ & C2 & _)|(_ & C2 & _)]; rewrite C2; [exact H4|apply remove_in; auto].
Qed.
(** The session which is fed is this one only if [X]. *)
Lemma est_fate : forall S6 S4 D4 t0 D t t' i s b e f now, inv D t -> sess t i = Some s -> bibs t (s_bib s) = Some b -> fate_done t t' i s e f now -> (f = FATE_RM -> s_state s <> ESTABLISHED) ->
  (b_src6 b = S6 -> b_src4 b = S4 -> s_dst4 s = D4 -> fine t0 s -> e_state e = ESTABLISHED /\
     match f with FATE_TIMER_EST => t0 <= now | FATE_TIMER_SLOW => e_timer e = T_EST /\ t0 <= e_time e | FATE_PRESERVE | FATE_DROP => t0 <= e_time e | _ => False end) ->
  est S6 S4 D4 t0 t -> est S6 S4 D4 t0 t'.
Proof.
  intros S6 S4 D4 t0 D t t' i s b e f now I Hs Hb F Nr X St.
  assert (G : forall tm k st, kept t t' i (after s e tm k st) -> (fine t0 s -> s_exp s = T_EST -> s_stored s = None -> b_src6 b = S6 -> b_src4 b = S4 -> s_dst4 s = D4 -> k = T_EST /\ st = None /\ t0 <= tm /\ e_state e = ESTABLISHED) -> est S6 S4 D4 t0 t').
  { intros tm k st K Y. refine (est_kept _ _ _ _ _ _ _ _ K _ St). intros s1 b1 Hs1 Hb1 B6 B4 U4 Fi. assert (s1 = s) by congruence. subst s1. assert (b1 = b) by congruence. subst b1.
    destruct (Y Fi (proj1 (proj2 Fi)) (proj1 (proj2 (proj2 Fi))) B6 B4 U4) as (-> & -> & Y3 & Y4). split; [reflexivity|]. split; [reflexivity|]. repeat split; cbn [after s_state s_time]; assumption. }
  assert (Hst : forall x : bool, s_stored s = None -> (if x then s_stored s else None) = None) by (intros [|] Y; [exact Y|reflexivity]).
  unfold fate_done in F. destruct f.
  all: try (destruct F as [K _]; refine (G _ _ _ K _); intros Fi Ek Es B6 B4 U4; destruct (X B6 B4 U4 Fi) as [X1 X2]; try contradiction; repeat split; auto; fail).
  - exact (est_gone _ _ _ _ _ _ _ _ _ _ I Hs Hb F (Nr eq_refl) St).
  - destruct (same_timer T_BAD (e_timer e)) eqn:Eb.
    + destruct F as [K _]. refine (G _ _ _ K _). intros Fi Ek Es B6 B4 U4. destruct (X B6 B4 U4 Fi) as [X1 [X2 X3]]. repeat split; auto.
    + destruct F as [K _]. refine (G _ _ _ K _). intros Fi Ek Es B6 B4 U4. destruct (X B6 B4 U4 Fi) as [X1 [X2 X3]]. repeat split; auto.
Qed.
Lemma tsm_open : forall hr g e, open g -> e_state e = ESTABLISHED -> tcp_state_machine hr g e = (e, FATE_TIMER_EST).
Proof. intros hr g e [F R] E. unfold tcp_state_machine. rewrite E, Z.eqb_refl. unfold tcp_established_state. rewrite F, R. reflexivity. Qed.
Lemma tsm_rm : forall hr g e, snd (tcp_state_machine hr g e) = FATE_RM -> e_state e <> ESTABLISHED.
Proof. intros hr g e H E. unfold tcp_state_machine in H. rewrite E, Z.eqb_refl in H. unfold tcp_established_state in H. destruct (sg_fin g), (sg_rst g); discriminate. Qed.
Lemma est_tsm : forall S6 S4 D4 t0 D c g now t t' i s b, inv D t -> sess t i = Some s -> bibs t (s_bib s) = Some b ->
  (let r := tcp_state_machine (c_handle_rst c) g (entry_of c TCP b s) in fate_done t t' i s (fst r) (snd r) now) -> t0 <= now ->
  (b_src6 b = S6 -> b_src4 b = S4 -> s_dst4 s = D4 -> s_state s = ESTABLISHED -> open g) ->
  est S6 S4 D4 t0 t -> est S6 S4 D4 t0 t'.
Proof.
  intros S6 S4 D4 t0 D c g now t t' i s b I Hs Hb F Hn X St. cbv zeta in F. refine (est_fate _ _ _ _ _ _ _ _ _ _ _ _ _ I Hs Hb F _ _ St).
  - intros Y. exact (tsm_rm _ _ _ Y).
  - intros B6 B4 U4 Fi. pose proof (X B6 B4 U4 (proj1 Fi)) as O. rewrite (tsm_open _ _ (entry_of c TCP b s) O (proj1 Fi)). cbn [fst snd entry_of e_state]. split; [apply Fi|exact Hn].
Qed.

Definition calm (o : op) : Prop := match o with OTcp6 _ _ _ _ g _ _ | OTcp4 _ _ _ g _ _ _ => open g | OClean _ _ => False | _ => True end.
Lemma est_closed : forall c o S6 S4 D4 t0, lets_run S6 S4 D4 t0 c o -> calm o -> (timed o = true -> t0 <= op_now o) -> closed c TCP o (est S6 S4 D4 t0).
Proof.
  intros c o S6 S4 D4 t0 (Na & Ng & Sp) Nc Hn. constructor.
  - intros D t t' i s b r I I' L Hb R F St. destruct L as [Hs _].
    destruct o; cbn [reacts calm] in *; try contradiction; cbn [timed op_now] in *; specialize (Hn eq_refl).
    + subst r. refine (est_fate _ _ _ _ _ _ _ _ _ _ _ _ _ I Hs Hb F ltac:(discriminate) _ St). cbn. intros _ _ _ (X & _). auto.
    + subst r. refine (est_fate _ _ _ _ _ _ _ _ _ _ _ _ _ I Hs Hb F ltac:(discriminate) _ St). cbn. intros _ _ _ (X & _). auto.
    + destruct R as [_ ->]. exact (est_tsm _ _ _ _ _ _ _ _ _ _ _ _ _ I Hs Hb F Hn (fun _ _ _ _ => Nc) St).
    + destruct R as [_ ->]. exact (est_tsm _ _ _ _ _ _ _ _ _ _ _ _ _ I Hs Hb F Hn (fun _ _ _ _ => Nc) St).
    + subst r. unfold collision_cb in F. destruct (session_equals (entry_of c TCP b s) e) eqn:Eq.
      * cbn [fst snd] in F. refine (est_fate _ _ _ _ _ _ _ _ _ _ _ _ _ I Hs Hb F ltac:(discriminate) _ St). cbn [e_state e_time e_timer]. intros B6 B4 U4 Fi.
        unfold session_equals in Eq. rewrite !andb_true_iff in Eq. destruct Eq as [[[Q1 Q2] Q3] Q4]. apply ta_eqb_eq in Q1, Q2, Q3, Q4. cbn in Q1, Q2, Q3, Q4.
        destruct Sp as (P1 & P2 & P3); try congruence. auto.
      * cbn [fst snd] in F. refine (est_fate _ _ _ _ _ _ _ _ _ _ _ _ _ I Hs Hb F ltac:(discriminate) _ St). cbn. intros _ _ _ (X1 & _ & _ & X2). auto.
  - intros D t t' sid s b' I I' A _ _ _ (j & u & b & H4 & Hj & Hb & B6 & B4 & H). assert (Nj : j <> sid) by (intros ->; pose proof (a_s0 _ _ _ _ _ A); congruence).
    assert (Hj' : sess t' j = Some u) by (rewrite (a_sess _ _ _ _ _ A), (proj2 (Z.eqb_neq _ _) Nj); exact Hj).
    assert (H4' : In (s_bib u) (tree4 t')) by (apply (a_t4 _ _ _ _ _ A); left; exact H4).
    destruct (Z.eq_dec (s_bib u) (s_bib s)) as [E|E].
    + pose proof (a_b _ _ _ _ _ A) as Ab. rewrite <- E, Hb in Ab. destruct Ab as (_ & A6 & A4 & _). exists j, u, b'. rewrite (a_bibs _ _ _ _ _ A). split; [exact H4'|]. split; [exact Hj'|]. split; [rewrite E, Z.eqb_refl; reflexivity|]. split; [congruence|]. split; [congruence|exact H].
    + exists j, u, b. rewrite (a_bibs _ _ _ _ _ A), (proj2 (Z.eqb_neq _ _) E). auto 10.
  - intros t t1 w masks bdl evs I Pr Hd (j & u & b & H4 & Hj & Hb & B6 & B4 & H). exists j, u, b. rewrite (p_bibs _ _ _ _ _ _ Pr), (p_sess _ _ _ _ _ _ Pr), (p_t4 _ _ _ _ _ _ Pr). split; [|auto 10]. apply drop_in. split; [exact H4|].
    destruct Hd as [->|(d & bid & b0 & Ha & -> & Hb0 & Hi)]; [intros []|]. intros [X|[]]. assert (b0 = b) by congruence. subst b0. apply Ng. unfold issue216_needed in Hi. apply andb_true_iff in Hi. destruct Hi as [Hi1 Hi2]. apply negb_true_iff in Hi2.
    destruct o; cbn [adds6 outgrown] in *; try discriminate; injection Ha as -> ->; rewrite <- B6, <- B4; auto.
  - intros D t t' I Hb' Hs' Ht _ _ (j & u & b & H4 & Hj & Hb & H). assert (ND : ~ In (s_bib u) D) by (apply (in4 _ _ I) in H4; apply H4).
    exists j, u, b. rewrite Ht. split; [exact H4|]. split; [apply Hs'; auto|]. split; [|exact H]. rewrite Hb'. destruct (mem_id (s_bib u) D) eqn:Em; [apply mem_in in Em; contradiction|exact Hb].
  - intros t t' l I R Hl (j & u & b & H4 & Hj & Hb & B6 & B4 & H). assert (Nx : ~ In (s_bib u) l).
    { intros C. apply Na. specialize (Hl _ C). rewrite (key6_of _ _ _ Hb), (key4_of _ _ _ Hb), B6, B4 in Hl. exact Hl. }
    exists j, u, b. split; [rewrite (r_t4 _ _ _ R); apply drop_in; auto|]. split; [apply (r_sess _ _ _ R); auto|]. rewrite (r_bibs _ _ _ R). destruct (mem_id (s_bib u) l) eqn:Em; [apply mem_in in Em; contradiction|auto].
  - intros t q n H _. exact H.
  - intros t t' a6 a4 evs I St (j & u & b & H4 & Hj & Hb & B6 & B4 & H). inversion St as [|i b0 H1 H2 H3 H5 Et H6| |i H1 H2 H3 H5 H6 H7 H8 H9 H10 H11].
    + rewrite Et. exists j, u. cbn [put_bib set_bibs bibs tree4 sess]. unfold upd. destruct (Z.eqb_spec (s_bib u) i) as [E|N].
      * assert (b0 = b) by congruence. subst b0. eexists. split; [exact H4|]. split; [exact Hj|]. split; [reflexivity|]. cbn [b_src6 b_src4]. split; [congruence|]. split; [congruence|exact H].
      * exists b. auto 10.
    + exists j, u, b. split; [apply H5; right; exact H4|]. rewrite H2, H3. unfold upd. destruct (Z.eqb_spec (s_bib u) i) as [E|N]; [congruence|auto 10].
Qed.

(** Segments of other connections, which may close those *)
Definition still_g (g : segment) : segment := Seg (sg_fam g) (sg_syn g) false false.
Lemma est_tcp6 : forall c t d s6 d6 d4 g now al v en t' evs S6 S4 D4 t0, wf_op (OTcp6 d s6 d6 d4 g now al) -> inv [] t -> lets_run S6 S4 D4 t0 c (OTcp6 d s6 d6 d4 g now al) -> t0 <= now ->
  bib_add_tcp6 c t d s6 d6 d4 g now al = Ok (v, en, t', evs) -> est S6 S4 D4 t0 t -> est S6 S4 D4 t0 t'.
Proof.
  intros c t d s6 d6 d4 g now al v en t' evs S6 S4 D4 t0 W I Lr Hn E Ht.
  assert (C : closed c TCP (OTcp6 d s6 d6 d4 (still_g g) now al) (est S6 S4 D4 t0)).
  { apply est_closed; [|split; reflexivity|intros _; exact Hn]. destruct Lr as (A & B & _). split; [exact A|]. split; [exact B|]. intros _ _. split; reflexivity. }
  destruct Lr as (_ & _ & Lr).
  destruct (bib_add_tcp6_ok c t d s6 d6 d4 g now al I W) as [(E1 & _)|[(E1 & _)|(e & v1 & en1 & t1 & f & t2 & evs2 & devs & E1 & F & Ed & I2 & _ & _ & Hm)]]; rewrite E1 in E; [injection E as _ _ <- _; exact Ht|discriminate|].
  assert (t1 = t') by congruence. subst t1. apply (del_P _ _ _ _ _ _ _ _ C I2 Ed). assert (Hf : est S6 S4 D4 t0 (f_t f)).
  { refine (found_P _ _ _ _ _ _ _ _ _ _ C I F eq_refl _ Ht). right. exists d. split; [reflexivity|]. split; [reflexivity|]. right. eauto 10. }
  destruct e; [|destruct Hm as (_ & _ & ->); exact Hf]. pose proof (proj1 (prep_old _ _ _ _ _ _ I F)) as If. destruct (f_sess f) as [sid|] eqn:Ef.
  - destruct Hm as (Eb & s & b & s' & Hs & Hb & _ & Fd & _). refine (est_tsm _ _ _ _ _ _ _ _ _ _ _ _ _ If Hs Hb Fd Hn _ Hf). intros B6 B4 U4 Es.
    inversion F as [bid b0 F1 F2 F3 F4 Hb0 Hi0 H6 H2 En Hit|bid sid' Hp F1 F2 F3 F4 U N|Pr F1 F2|x Pr F1 St F2 F3|]; [| |congruence|congruence].
    + rewrite Ef in Hit. destruct Hit as [Hit Kk]. apply nth_error_In in Hit. apply (ibs _ _ I _ _ Hb0) in Hit. destruct Hit as (s0 & Hs0 & Esb). rewrite F1 in *. assert (s0 = s) by congruence. subst s0. rewrite Esb in Hb. assert (b0 = b) by congruence. subst b0.
      unfold keys in Kk. rewrite Hs0, En in Kk. cbn in Kk, H6. apply Lr; congruence.
    + exfalso. destruct (u_ex _ _ _ _ _ _ _ _ U) as (tx & n & b' & _ & A & _). assert (sid' = sid) by congruence. subst sid'. rewrite (a_sess _ _ _ _ _ A), Z.eqb_refl in Hs. injection Hs as <-. discriminate Es.
  - destruct (sg_syn g); [|destruct Hm as (-> & _); exact Hf]. destruct Hm as (_ & _ & Hl). destruct (found_state _ _ _ _ _ _ F Ef) as [(y & Ey & _ & _ & _ & Hy)|Hw].
    + exfalso. destruct Hl as (sid & s & b' & Cp & _). pose proof (c_bib _ _ _ _ _ _ _ _ Cp) as Hc. rewrite Ey in Hc. destruct Hc as (_ & Hc). congruence.
    + apply (linked6_P c TCP _ (est S6 S4 D4 t0) f T_TRANS now t2 en1 C); auto.
Qed.
Lemma est_tcp4 : forall c t s4 d4 d6 g skb now al v en t' evs S6 S4 D4 t0, inv [] t -> lets_run S6 S4 D4 t0 c (OTcp4 s4 d4 d6 g skb now al) -> t0 <= now ->
  bib_add_tcp4 c t s4 d4 d6 g skb now al = Ok (v, en, t', evs) -> est S6 S4 D4 t0 t -> est S6 S4 D4 t0 t'.
Proof.
  intros c t s4 d4 d6 g skb now al v en t' evs S6 S4 D4 t0 I Lr Hn E0 Ht.
  assert (C : closed c TCP (OTcp4 s4 d4 d6 (still_g g) skb now al) (est S6 S4 D4 t0)).
  { apply est_closed; [|split; reflexivity|intros _; exact Hn]. destruct Lr as (A & B & _). split; [exact A|]. split; [exact B|]. intros _ _. split; reflexivity. }
  destruct Lr as (_ & _ & Lr).
  destruct (bib_add_tcp4_ok c t s4 d4 d6 g skb now al I) as [(E1 & _)|(v1 & en1 & t1 & evs1 & E1 & I1 & _ & _ & _ & Hc)]; rewrite E1 in E0; [discriminate|].
  assert (t1 = t') by congruence. subst t1. clear E0 E1. inversion Hc as [E|v' en' sid s b Hs Ed Hb Eb Hf|E|bid b E|E|E|E|E|bid b en' Hb Hi _ _ _ _ _ _ _ Hl|bid b en' Hb Hi _ _ _ _ _ Hl]; try (rewrite E; exact Ht).
  - destruct Hf as (s1 & b1 & s1' & Hs1 & Hb1 & _ & Fd & _). assert (s1 = s) by congruence. subst s1. assert (b1 = b) by congruence. subst b1.
    refine (est_tsm _ _ _ _ _ _ _ _ _ _ _ _ _ I Hs Hb Fd Hn _ Ht). intros B6 B4 U4 _. apply Lr; congruence.
  - destruct Hl as (sid & s & b' & A & Es & Hsb & _ & L). subst s. eapply (cl_add _ _ _ _ C []); [exact I|exact I1|exact A|intros []| | |exact Ht].
    + cbn [creates s_state s_exp s_time s_stored]. repeat split; discriminate.
    + cbn [placed s_exp]. exact L.
  - destruct Hl as (sid & s & b' & A & Es & Hsb & _ & L). subst s. eapply (cl_add _ _ _ _ C []); [exact I|exact I1|exact A|intros []| | |exact Ht].
    + cbn [creates s_state s_exp s_time s_stored]. repeat split; discriminate.
    + cbn [placed s_exp]. exact L.
Qed.
Lemma est_clean : forall c t now al t' evs S6 S4 D4 t0, sane c -> now < 2 ^ 62 -> now * c_hz c < t0 * c_hz c + c_tcp_est c ->
  inv [] t -> ord now t -> clean_table c TCP t now al = Ok (t', evs) -> est S6 S4 D4 t0 t -> est S6 S4 D4 t0 t'.
Proof.
  intros c t now al t' evs S6 S4 D4 t0 Sa Hn Hp I O E (j & u & b & H4 & Hj & Hb & B6 & B4 & H).
  destruct (clean_exact c TCP t now al (sane_cfg c Sa) Hn I O) as (t1 & e1 & E1 & I1 & _ & _ & _ & Hk). assert (t1 = t') by congruence. subst t1.
  assert (X : ~ elapsed c TCP u now).
  { intros X. apply (expired_elapsed c TCP u now Sa) in X. unfold expired in X. destruct H as (_ & _ & Ue & _ & Ut). destruct Sa as (Hz & _).
    assert (lifetime c TCP u = c_tcp_est c) as L by (unfold lifetime; rewrite Ue; reflexivity). rewrite L in X. nia. }
  specialize (Hk j u Hj X). destruct (clean_maps _ _ _ _ _ _ _ I E) as [_ M]. pose proof (isb _ _ I1 _ _ Hk) as Nb. destruct (bibs t' (s_bib u)) as [b'|] eqn:Hb'; [|congruence].
  assert (Hin : In (s_bib u) (tree4 t')) by (apply (in4 _ _ I1); split; [congruence|intros []]).
  destruct (M (s_bib u) (b_src6 b') (b_src4 b') (b_static b')) as (_ & b0 & Hb0 & F6 & F4 & _); [split; [exact Hin|eauto]|]. assert (b0 = b) by congruence. subst b0.
  exists j, u, b'. split; [exact Hin|]. split; [exact Hk|]. split; [exact Hb'|]. split; [congruence|]. split; [congruence|exact H].
Qed.
Lemma est_step : forall c o T t x t' evs S6 S4 D4 t0, wf_op o -> inv [] t -> ord T t -> t0 <= T -> (timed o = true -> op_now o = T) -> lets_run S6 S4 D4 t0 c o ->
  step c TCP t o = Ok (x, t', evs) -> est S6 S4 D4 t0 t -> est S6 S4 D4 t0 t'.
Proof.
  intros c o T t x t' evs S6 S4 D4 t0 W I O Ht Et Lr E St. destruct o as [| |d s6 d6 d4 g now al|s4 d4 d6 g skb now al| |now al| | | |].
  6: { cbn [step] in E. destruct (clean_table c TCP t now al) as [[t1 e1]| |] eqn:Ec; cbn [bind] in E; try discriminate. injection E as _ <- _. destruct Lr as (_ & _ & Sa & Hn & Hp). cbn [timed op_now] in Et. rewrite (Et eq_refl) in *.
       exact (est_clean _ _ _ _ _ _ _ _ _ _ Sa Hn Hp I O Ec St). }
  3: { cbn [step timed op_now] in *. rewrite <- (Et eq_refl) in Ht. destruct (bib_add_tcp6 c t d s6 d6 d4 g now al) as [[[[v en] t1] e1]| |] eqn:Ec; cbn [bind] in E; try discriminate. injection E as _ <- _. exact (est_tcp6 _ _ _ _ _ _ _ _ _ _ _ _ _ _ _ _ _ W I Lr Ht Ec St). }
  3: { cbn [step timed op_now] in *. rewrite <- (Et eq_refl) in Ht. destruct (bib_add_tcp4 c t s4 d4 d6 g skb now al) as [[[[v en] t1] e1]| |] eqn:Ec; cbn [bind] in E; try discriminate. injection E as _ <- _. exact (est_tcp4 _ _ _ _ _ _ _ _ _ _ _ _ _ _ _ _ _ I Lr Ht Ec St). }
  all: refine (step_P _ _ _ _ _ _ _ _ W (est_closed _ _ _ _ _ _ Lr Logic.I _) I St E); intros Y; rewrite (Et Y); exact Ht.
Qed.
