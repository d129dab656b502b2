(** Claims C24 and C25: ICMP errors leave the tables alone; answers (and errors)
    reach the node that sent the packet. *)
Require Import Verif.Base Verif.Addr_Model Verif.Addr_Spec Verif.Addr_Properties Verif.Rtrie_Model Verif.Pool4_Model Verif.Fsm_Model Verif.Bib_Model
  Verif.Rbtree_Model Verif.Rbtree_Properties Verif.Bib_Inv Verif.Bib_Steps Verif.Bib_Fate Verif.Bib_Find Verif.Bib_Add Verif.Bib_Ops Verif.Bib_Hist Verif.Bib_Spec Verif.Bib_Properties Verif.Bib_Filter
  Verif.Nat64_Model Verif.Nat64_Spec.
Local Ltac Zify.zify_post_hook ::= idtac.

Lemma bind_ok : forall A B (m : res A) (f : A -> res B) y, bind m f = Ok y -> exists x, m = Ok x /\ f x = Ok y.
Proof. intros A B [x| |] f y H; [exists x; auto|discriminate|discriminate]. Qed.
Ltac unbind H x E := apply bind_ok in H; destruct H as (x & E & H).

(** ** C24 *)
Lemma in_tuple_error : forall k i, icmp_error k i -> exists x v, determine_in_tuple k = (x, v) /\ (x = Continue -> exists v', v = Some v' /\ v_err v' = true).
Proof.
  intros k i (ty & id & E & H). unfold determine_in_tuple. rewrite E.
  assert (N : match k_fam k with V6 => is_icmp6_info ty | V4 => is_icmp4_info ty end = false /\ match k_fam k with V6 => is_icmp6_error ty | V4 => is_icmp4_error ty end = true).
  { destruct (k_fam k); cbn [In] in H; repeat (destruct H as [<-|H]; [split; reflexivity|]); destruct H. }
  destruct N as [-> ->]. unfold icmp_err. destruct (in_l4 i) as [p q|p q|t1 i1|]; try (eexists _, _; split; [reflexivity|]; intros; eexists; split; reflexivity).
  - destruct (match k_fam k with V6 => is_icmp6_error t1 | V4 => is_icmp4_error t1 end); eexists _, _; (split; [reflexivity|]); [discriminate|]. intros _. eexists. split; reflexivity.
  - eexists _, _. split; [reflexivity|]. discriminate.
Qed.
Lemma steps23_error : forall g n s v o s' evs, v_err v = true -> steps23 g n s v = Ok (o, s', evs) -> s' = s /\ evs = [].
Proof.
  intros g n s v o s' evs Hv H. unfold steps23 in H. unbind H r E.
  assert (F : exists x en, r = (x, en, s, [])).
  { unfold filtering_and_updating in E. unbind E a Ea. unfold fu_admit in Ea. rewrite Hv in Ea. destruct (v_fam v).
    - destruct (prefix6_contains _ _); [|destruct (negb _)]; injection Ea as <-; injection E as <-; eauto.
    - unbind Ea b Eb. destruct (negb b); injection Ea as <-; injection E as <-; eauto. }
  destruct F as (x & en & ->). destruct x; try (injection H as _ <- <-; auto). unbind H y Ey. destruct y as [[] [u|]]; injection H as _ <- <-; auto.
Qed.

(** Whatever becomes of it and whatever the tables are. *)
Theorem C24_icmp_errors : forall g n n2 nm x1 x2 s k i o s' evs, icmp_error k i ->
  core_common g n n2 nm x1 x2 s k = Ok (o, s', evs) -> s' = s /\ evs = [].
Proof.
  intros g n n2 nm x1 x2 s k i o s' evs He H. unfold core_common in H. destruct (in_tuple_error k i He) as (x & v & E & Hv). rewrite E in H.
  destruct x; try (injection H as _ <- <-; auto). destruct (Hv eq_refl) as (v' & -> & Ev). clear E Hv. unbind H r E. destruct r as [[o1 s1] evs1].
  destruct (steps23_error _ _ _ _ _ _ _ Ev E) as [-> ->]. destruct o1 as [f o1|y]; [|injection H as _ <- <-; auto]. destruct x1; try (injection H as _ <- <-; auto).
  unbind H h Eh. destruct h; [|injection H as _ <- <-; auto]. destruct nm; [|injection H as _ <- <-; auto].
  unbind H r E2. destruct r as [[o2 s2] evs2]. destruct (steps23_error _ _ _ _ _ _ _ (Ev : v_err (hairpin_view v' o1) = true) E2) as [-> ->]. cbn [app] in H. destruct o2; [destruct x2|]; injection H as _ <- <-; auto.
Qed.
Print Assumptions C24_icmp_errors.

(** ** C25: the way there *)
Lemma core_there : forall g n n2 nm x1 x2 s k o s' evs, k_fam k = V6 -> core_common g n n2 nm x1 x2 s k = Ok (Sent V4 o, s', evs) ->
  exists v, determine_in_tuple k = (Continue, Some v) /\ steps23 g n s v = Ok (Sent V4 o, s', evs).
Proof.
  intros g n n2 nm x1 x2 s k o s' evs Hf H. unfold core_common in H. destruct (determine_in_tuple k) as [x [v|]] eqn:E; [|destruct x; discriminate].
  destruct x; try discriminate. exists v. split; [reflexivity|]. unbind H r E1. destruct r as [[o1 s1] evs1]. rewrite E1. clear E1. destruct o1 as [f o1|y]; [|discriminate]. destruct x1; try discriminate.
  unbind H h Eh. destruct h; [|injection H as -> -> -> ->; reflexivity]. destruct nm; [|discriminate]. unbind H r E2. destruct r as [[o2 s2] evs2]. destruct o2 as [f2 o2|]; [|destruct x2; discriminate].
  destruct x2; try discriminate. injection H as Hf2 _ _ _. subst f2. exfalso.
  assert (V : v_fam v = V6).
  { unfold determine_in_tuple, icmp_err in E. destruct (k_l4 k); try (injection E as <-; exact Hf); [|discriminate].
    destruct (match k_fam k with V6 => is_icmp6_info ty | V4 => is_icmp4_info ty end); [injection E as <-; exact Hf|]. destruct (match k_fam k with V6 => is_icmp6_error ty | V4 => is_icmp4_error ty end); [|discriminate].
    destruct (in_l4 i); try (injection E as <-; exact Hf); [|discriminate]. destruct (match k_fam k with V6 => is_icmp6_error ty0 | V4 => is_icmp4_error ty0 end); [discriminate|injection E as <-; exact Hf]. }
  unfold steps23 in E2. unbind E2 r E3. destruct r as [[[x en] s3] evs3]. destruct x; try discriminate. unbind E2 y E4. destruct y as [[] [u|]]; try discriminate. injection E2 as E2 _ _ _. cbn [hairpin_view v_fam] in E2. rewrite V in E2. discriminate.
Qed.
Lemma flow_view : forall k pr a b, flow k = Some (pr, a, b) ->
  determine_in_tuple k = (Continue, Some (View (k_fam k) (k_src k) (k_dst k) pr false
    (match k_l4 k with LTcp _ _ syn fin rst => Seg (k_fam k) syn fin rst | _ => Seg (k_fam k) false false false end) a b pr)).
Proof.
  intros k pr a b H. unfold flow in H. unfold determine_in_tuple. destruct (k_l4 k) as [sp dp|sp dp sy fi rs|ty id i|]; [injection H as <- <- <-; reflexivity|injection H as <- <- <-; reflexivity| |discriminate].
  assert (E : match k_fam k with V6 => is_icmp6_info ty | V4 => is_icmp4_info ty end = true /\ Some (ICMP, (k_src k, id), (k_dst k, id)) = Some (pr, a, b)).
  { destruct (k_fam k); unfold is_icmp6_info, is_icmp4_info.
    - destruct (Z.eqb_spec ty 128) as [->|N1]; [auto|]. destruct (Z.eqb_spec ty 129) as [->|N2]; [auto|]. exfalso. destruct ty as [|q|q]; try discriminate. do 9 (try (destruct q as [q|q|]; try discriminate)); congruence.
    - destruct (Z.eqb_spec ty 8) as [->|N1]; [auto|]. destruct (Z.eqb_spec ty 0) as [->|N2]; [auto|]. exfalso. destruct ty as [|q|q]; try discriminate; try congruence. do 9 (try (destruct q as [q|q|]; try discriminate)); congruence. }
  destruct E as [-> E]. injection E as <- <- <-. reflexivity.
Qed.

Lemma fate_dst : forall t t' i s e f now, fate_done t t' i s e f now -> f <> FATE_RM -> exists y, sess t' i = Some y /\ s_dst4 y = s_dst4 s.
Proof.
  intros t t' i s e f now H N. unfold fate_done in H.
  assert (K : exists y, kept t t' i y /\ s_dst4 y = s_dst4 s).
  { destruct f; try congruence; try (destruct (same_timer T_BAD (e_timer e))); destruct H as [H _]; eexists; (split; [exact H|reflexivity]). }
  destruct K as (y & K & E). exists y. rewrite (k_sess _ _ _ _ K), Z.eqb_refl. auto.
Qed.
Lemma tcp6_there : forall c t d masks s6 d6 d4 g now al en t' evs, reachable TCP t -> offers d masks -> sg_syn g = true -> (forall n, In n (queue t) -> q_dst6 n <> d6) ->
  bib_add_tcp6 c t d s6 d6 d4 g now al = Ok (VContinue, en, t', evs) -> exists e, en = Session e /\ e_src6 e = s6 /\ has_session t' s6 (e_src4 e) (e_dst6 e) d4.
Proof.
  intros c t d out s6 d6 d4 g now al en t' evs R O Hg Hq H. destruct (reach_inv TCP t R) as [I _].
  destruct (bib_add_tcp6_ok c t d s6 d6 d4 g now al I (ex_intro _ out O)) as [(E & Ha)|[(E & B)|(e & v & en1 & t1 & f & t2 & evs2 & devs & E & F & Ed & I2 & _ & _ & Hm)]]; rewrite H in E; try discriminate.
  injection E as <- <- <- _. destruct e as [|x]; [|destruct Hm; discriminate]. destruct (f_sess f) as [sid|] eqn:Ef.
  - destruct Hm as (Eb & s & b & s' & Hs & Hb & Hi & Fd & Nr & K & Sb & _ & X). rewrite Eb in *. cbn [commit_delete_list] in Ed. injection Ed as <- _.
    inversion F as [bid b0 E1 E2 E3 E4 Hb0 Hi0 H6 H2 En Hit|bid sid' Hp E1 E2 E3 E4 U N|Pr E1 E2|x Pr E1 St E2 E3|]; [| |congruence|congruence].
    + rewrite Ef in Hit. destruct Hit as [Hit Kk]. apply nth_error_In in Hit. apply (ibs _ _ I _ _ Hb0) in Hit. destruct Hit as (s0 & Hs0 & Esb). rewrite E1 in *. assert (s0 = s) by congruence. subst s0. subst bid. assert (b0 = b) by congruence. subst b0.
      unfold keys in Kk. rewrite Hs, En in Kk. cbn [completed w_dst4] in Kk.
      assert (Y : en = Session (entry_of c TCP b s') /\ s_dst4 s' = s_dst4 s).
      { destruct (fate_dst _ _ _ _ _ _ _ Fd Nr) as (y & Hy & Ey). rewrite (k_sess _ _ _ _ K), Z.eqb_refl in Hy. injection Hy as <-. split; [|exact Ey].
        clear -X. destruct (snd (tcp_state_machine (c_handle_rst c) g (entry_of c TCP b s))); destruct X as [X1 X2]; try discriminate; exact X2. }
      destruct Y as [-> Y]. eexists. split; [reflexivity|]. split; [exact H6|]. exists sid, s', b. rewrite (k_sess _ _ _ _ K), Z.eqb_refl, (k_bibs _ _ _ _ K), Sb, Y. cbn. auto 10.
    + exfalso. destruct (u_ex _ _ _ _ _ _ _ _ U) as (t0 & n & b' & _ & _ & _ & Hin & Hd & _). exact (Hq n Hin Hd).
  - rewrite Hg in Hm. destruct Hm as (_ & _ & Hl). destruct (served_linked c TCP t d _ now f out T_TRANS t2 en t' devs I F O Ef Hl I2 Ed) as (k & st & e & -> & X1 & X2 & X3 & _ & _ & _ & X & _).
    exists e. split; [reflexivity|]. split; [exact X1|]. rewrite X2. cbn [far_end w_src6 w_dst4] in *. rewrite X3 in X. exact X.
Qed.

(** The first packet of a conversation that leaves towards the IPv4 side leaves a
    session behind, between the addresses it left with. *)
Theorem C25_session_partial : forall g n n2 nm x1 x2 s k pr S6 D6 o s1 evs,
  reachable_db s -> usable g n -> k_fam k = V6 -> flow k = Some (pr, S6, D6) ->
  (pr = TCP -> is_syn k = true /\ forall q, In q (queue (d_tcp s)) -> q_dst6 q <> D6) ->
  core_common g n n2 nm x1 x2 s k = Ok (Sent V4 o, s1, evs) ->
  exists x, has_session (get_table s1 pr) S6 (o_src o) x (o_dst o).
Proof.
  intros g n n2 nm x1 x2 s k pr S6 D6 o s1 evs (Ru & Rt & St & Ri) Us Hf Fl Ht H. destruct (core_there _ _ _ _ _ _ _ _ _ _ _ Hf H) as (v & Ev & E). clear H.
  rewrite (flow_view _ _ _ _ Fl) in Ev. injection Ev as Ev. assert (V : v_fam v = V6 /\ v_src v = S6 /\ v_dst v = D6 /\ v_pr v = pr /\ v_l4 v = pr /\ v_err v = false /\ (pr = TCP -> sg_syn (v_seg v) = true)).
  { rewrite <- Ev. cbn. rewrite Hf. repeat split. intros ->. destruct (Ht eq_refl) as [Hs _]. unfold is_syn in Hs. destruct (k_l4 k); try discriminate. exact Hs. }
  destruct V as (V1 & V2 & V3 & V4 & V5 & V6 & V7). clear Ev. unfold steps23 in E. unbind E r E1. destruct r as [[[x en] s2] evs2]. destruct x; try discriminate.
  unbind E y E2. destruct y as [[] [u|]]; try discriminate. injection E as E -> -> ->.
  unfold filtering_and_updating in E1. unbind E1 a Ea. destruct a as [a|].
  { exfalso. unfold fu_admit in Ea. rewrite V1, V6 in Ea. destruct (prefix6_contains _ _); [|destruct (negb _)]; congruence. }
  unfold fu_update in E1. rewrite V5, V1 in E1. clear Ea.
  unfold compute_out_tuple in E2. unbind E2 b Eb. destruct b as [[b6 b4]|]; [|discriminate]. rewrite V1, V3, V4 in E2. destruct (rfc6052_6to4 (g_pool6 g) (fst D6)) as [a4|] eqn:Ex; [|discriminate]. injection E2 as <-. cbn [o_src o_dst].
  assert (Simple : pr <> TCP -> reachable pr (get_table s pr) -> ipv6_simple g n s v = Ok (Continue, en, s1, evs) -> pr <> OTHER -> exists x, has_session (get_table s1 pr) S6 b4 x (a4, match pr with ICMP => snd b4 | _ => snd D6 end)).
  { intros Np R Es No. unfold ipv6_simple, xlat_dst_6to4 in Es. rewrite V3, Ex, V4, V2 in Es. unbind Es f Ef. destruct f as [d|]; [|discriminate]. destruct (Us _ _ Ef) as (out & O).
    destruct (C18_udp_icmp (g_cfg g) pr _ d out S6 D6 (a4, snd D6) (n_now n) (n_al n) R Np O) as (e1 & en1 & t1 & evs1 & Eq & Hm). rewrite Eq in Es. cbn [bind] in Es. destruct e1 as [|z]; [|discriminate].
    injection Es as -> <- ->. destruct Hm as (kk & st & e & -> & Y1 & Y2 & Y3 & _ & _ & _ & Y & _). cbn [find_bib] in Eb. injection Eb as _ Eb. exists (e_dst6 e).
    assert (T : get_table (set_table s pr t1) pr = t1) by (destruct pr; try reflexivity; congruence). rewrite T. rewrite <- Eb, Y2. rewrite Y3 in Y. destruct pr; try congruence; exact Y. }
  destruct pr; [|exact (Simple ltac:(discriminate) Ru E1 ltac:(discriminate))|destruct (g_drop_info g); [discriminate|]; exact (Simple ltac:(discriminate) Ri E1 ltac:(discriminate))|discriminate].
  destruct (Ht eq_refl) as [_ Hq]. unfold ipv6_tcp, xlat_dst_6to4 in E1. rewrite V3, Ex, V4, V2 in E1. unbind E1 f Ef. destruct f as [d|]; [|discriminate]. destruct (Us _ _ Ef) as (out & O).
  unbind E1 r Er. destruct r as [[[v1 en1] t1] evs1]. injection E1 as E1 -> <- ->. assert (v1 = VContinue) by (destruct v1; try discriminate; reflexivity). subst v1.
  destruct (tcp6_there _ _ _ _ _ _ _ _ _ _ _ _ _ Rt O (V7 eq_refl) Hq Er) as (e & -> & Y1 & Y). cbn [find_bib] in Eb. injection Eb as _ Eb. exists (e_dst6 e). rewrite <- Eb. exact Y.
Qed.
Print Assumptions C25_session_partial.

(** ** C25: the way back *)
Lemma no_drop : forall hr g e, sg_fam g = V4 -> e_stored e = false -> snd (tcp_state_machine hr g e) <> FATE_DROP.
Proof.
  intros hr g e Hg He. unfold tcp_state_machine, tcp_established_state, tcp_v4_init_state, tcp_v6_init_state, tcp_v4_fin_rcv_state, tcp_v6_fin_rcv_state, tcp_trans_state. rewrite Hg, He.
  repeat match goal with |- context [if ?c then _ else _] => destruct c end; discriminate.
Qed.
Lemma tcp4_back : forall c t s6 s4 d4 d6 g skb now al, reachable TCP t -> states_ok t -> sg_fam g = V4 -> open_session t s6 s4 d4 -> ~ In false al ->
  exists e t' evs, bib_add_tcp4 c t s4 d4 d6 g skb now al = Ok (VContinue, Session e, t', evs) /\ e_src6 e = s6 /\ e_src4 e = s4.
Proof.
  intros c t s6 s4 d4 d6 g skb now al R V Hg (j & s & b & Hs & Hb & E6 & E4 & Ed & Est) Ha. destruct (reach_inv TCP t R) as [I _]. unfold bib_add_tcp4.
  destruct (draw_alloc al) as [a al'] eqn:Ea. destruct (draw_in _ _ _ Ea) as [_ Hd]. destruct a; [|destruct Hd as [Hd|Hd]; [discriminate|contradiction]]. cbn [negb].
  destruct (find4_ok _ _ s4 d4 I) as (ob & os & n & al2 & E & H). rewrite E. cbn [bind].
  assert (X : ob = Some (s_bib s) /\ os = Some j).
  { destruct ob as [bid|].
    - destruct H as (b' & Hb' & H4 & E4' & Hh & _). assert (bid = s_bib s) by (apply (bib_unique4 t _ _ _ _ I Hb' Hb); congruence). subst bid. split; [reflexivity|]. assert (b' = b) by congruence. subst b'.
      destruct os as [sid|].
      + destruct Hh as [Hn Hk]. apply nth_error_In in Hn. apply (ibs _ _ I _ _ Hb) in Hn. destruct Hn as (s' & Hs' & Es'). f_equal. unfold keys in Hk. rewrite Hs' in Hk.
        apply (proj1 (proj2 (proj2 (C16_sessions TCP t R))) sid j s' s Hs' Hs Es'). congruence.
      + exfalso. destruct Hh as (B1 & B2 & B3). assert (Hj : In j (b_sess b)) by (apply (ibs _ _ I _ _ Hb); eauto).
        rewrite <- (firstn_skipn n (b_sess b)) in Hj. apply in_app_or in Hj. destruct Hj as [Hj|Hj]; [apply B2 in Hj|apply B3 in Hj]; unfold keys in Hj; rewrite Hs, Ed in Hj; exact (lt_ta_irr _ Hj).
    - exfalso. destruct H as (_ & _ & H). apply H. apply (taken_used _ _ I). exists s6, (b_static b), (s_bib s), b. auto. }
  destruct X as [-> ->]. clear H. assert (L : live [] t j s) by (split; [exact Hs|intros []]).
  destruct (feed_ok _ c t g j s now al' I L) as [[_ Hv]|(v & en & t2 & evs2 & Ex & I2 & A2 & D2 & Hf)]; [destruct (Hv (V _ _ Hs))|]. cbv zeta in Ex. rewrite Ex.
  destruct Hf as (s1 & b1 & s1' & Hs1 & Hb1 & _ & Hf). assert (s1 = s) by congruence. subst s1. assert (b1 = b) by congruence. subst b1. cbv zeta in Hf. destruct Hf as (_ & _ & _ & _ & _ & X).
  pose proof (no_drop (c_handle_rst c) g (entry_of c TCP b s) Hg ltac:(unfold entry_of; cbn; rewrite Est; reflexivity)) as Nd.
  assert (Y : v = VContinue /\ en = Session (entry_of c TCP b s1')) by (destruct (snd (tcp_state_machine (c_handle_rst c) g (entry_of c TCP b s))); auto; congruence). destruct Y as [-> ->].
  eexists _, t2, evs2. split; [reflexivity|]. split; [exact E6|exact E4].
Qed.

(** A packet from the IPv4 side that belongs to a session goes to the node the
    session is of, as coming from the IPv6 address of its sender.
    Missing: TCP sessions in which an unanswered packet is stored. *)
Theorem C25_delivery_partial : forall g n n2 nm x2 s k pr S6 S4 D4,
  reachable_db s -> pool6_ok g -> k_fam k = V4 -> flow k = Some (pr, D4, S4) -> is_u32 (fst D4) ->
  (exists x, has_session (get_table s pr) S6 S4 x D4) -> (pr = TCP -> open_session (d_tcp s) S6 S4 D4) ->
  pool4db_contains (g_pool4 g) (n_ifas n) pr (fst S4) (snd S4) = Ok true -> ~ In false (n_al n) ->
  exists a6 s' evs, rfc6052_4to6 (g_pool6 g) (fst D4) = Some a6 /\
    core_common g n n2 nm Continue x2 s k = Ok (Sent V6 (Out (a6, match pr with ICMP => snd S6 | _ => snd D4 end) S6), s', evs).
Proof.
  intros g n n2 nm x2 s k pr S6 S4 D4 (Ru & Rt & St & Ri) (W & fo & P) Hf Fl Hu (x & Hs) Ho Hp Ha.
  destruct (C01_rfc6052_roundtrip _ _ _ W P Hu) as (a6 & E6 & _). exists a6. unfold core_common. rewrite (flow_view _ _ _ _ Fl), Hf.
  set (v := View V4 (k_src k) (k_dst k) pr false _ D4 S4 pr).
  assert (Hok : exists en s' evs, filtering_and_updating g n s v = Ok (Continue, en, s', evs) /\ exists e, en = Session e /\ e_src6 e = S6 /\ e_src4 e = S4).
  { unfold filtering_and_updating, fu_admit. cbn [v v_fam v_pr v_dst v_err]. rewrite Hp. cbn [bind negb].
    unfold fu_update. cbn [v v_l4 v_fam].
    assert (Simple : reachable pr (get_table s pr) -> pr <> TCP -> exists en s' evs, ipv4_simple g n s v = Ok (Continue, en, s', evs) /\ exists e, en = Session e /\ e_src6 e = S6 /\ e_src4 e = S4).
    { intros R Np. unfold ipv4_simple, xlat_src_4to6. cbn [v v_src v_pr v_dst]. rewrite E6.
      destruct (C19_session (g_cfg g) pr _ S6 S4 x D4 (a6, snd D4) (n_now n) (n_al n) R Hs Ha) as (en & t' & E & e & Ee & H1 & H2 & H3 & H4). rewrite E. cbn [bind].
      eexists _, _, _. split; [reflexivity|]. exists e. auto. }
    destruct pr; [|apply Simple; [exact Ru|discriminate]|apply Simple; [exact Ri|discriminate]|unfold flow in Fl; destruct (k_l4 k); try discriminate].
    - unfold ipv4_tcp, xlat_src_4to6. cbn [v v_src v_pr v_dst v_seg]. rewrite E6.
      match goal with |- context [bib_add_tcp4 _ _ _ _ _ ?gg _ _ _] => assert (Hg : sg_fam gg = V4) by (destruct (k_l4 k); reflexivity);
        destruct (tcp4_back (g_cfg g) (d_tcp s) S6 S4 D4 (a6, snd D4) gg (n_skb n) (n_now n) (n_al n) Rt St Hg (Ho eq_refl) Ha) as (e & t' & evs & E & H1 & H2) end.
      rewrite E. cbn [bind of_verdict]. eexists _, _, _. split; [reflexivity|]. exists e. auto.
    - exfalso. destruct (k_fam k); destruct ty as [|q|q]; try discriminate; do 9 (try (destruct q as [q|q|]; try discriminate)). }
  destruct Hok as (en & s' & evs & E & e & -> & H1 & H2). unfold steps23. rewrite E. cbn [bind]. unfold compute_out_tuple. cbn [find_bib bind v v_fam v_src v_pr]. rewrite E6. cbn [bind flip].
  unfold is_hairpin. cbn [v_fam bind]. rewrite H1. exists s', evs. auto.
Qed.
Print Assumptions C25_delivery_partial.

(** What the packet left with. *)
Lemma out_there : forall g n n2 nm x1 x2 s k pr S6 D6 o s1 evs, k_fam k = V6 -> flow k = Some (pr, S6, D6) ->
  core_common g n n2 nm x1 x2 s k = Ok (Sent V4 o, s1, evs) ->
  exists a4, rfc6052_6to4 (g_pool6 g) (fst D6) = Some a4 /\ o_dst o = (a4, match pr with ICMP => snd (o_src o) | _ => snd D6 end) /\ (pr = ICMP -> snd D6 = snd S6).
Proof.
  intros g n n2 nm x1 x2 s k pr S6 D6 o s1 evs Hf Fl H. destruct (core_there _ _ _ _ _ _ _ _ _ _ _ Hf H) as (v & Ev & E). rewrite (flow_view _ _ _ _ Fl), Hf in Ev. injection Ev as <-.
  unfold steps23 in E. unbind E r E1. destruct r as [[[x en] s2] evs2]. destruct x; try discriminate. unbind E y E2. destruct y as [[] [u|]]; try discriminate. injection E as -> _ _.
  unfold compute_out_tuple in E2. unbind E2 b Eb. destruct b as [[b6 b4]|]; [|discriminate]. cbn [v_fam v_dst v_pr] in E2. destruct (rfc6052_6to4 (g_pool6 g) (fst D6)) as [a4|]; [|discriminate]. injection E2 as <-.
  exists a4. split; [reflexivity|]. split; [reflexivity|]. intros ->. unfold flow in Fl. rewrite Hf in Fl. destruct (k_l4 k); try discriminate. destruct ty as [|q|q]; try discriminate. do 9 (try (destruct q as [q|q|]; try discriminate)); injection Fl as <- <-; reflexivity.
Qed.
Lemma canonical_back : forall g a, pool6_ok g -> canonical g a -> exists a4, is_u32 a4 /\ rfc6052_4to6 (g_pool6 g) a4 = Some a /\ rfc6052_6to4 (g_pool6 g) a = Some a4.
Proof.
  intros g a (W & fo & P) (a4 & U & E). destruct (C01_rfc6052_roundtrip _ _ _ W P U) as (r & Er & _ & _ & Eb). assert (r = a) by congruence. subst r. eauto.
Qed.

(** So, whatever happens in between, while the session exists the answer goes back
    to where the packet came from, as coming from where it went.
    Missing: destinations pool6 would not give ([C25_refuted]), and as above. *)
Theorem C25_answers_partial : forall g n n2 nm x1 x2 s k pr S6 D6 o s1 evs,
  pool6_ok g -> k_fam k = V6 -> flow k = Some (pr, S6, D6) -> canonical g (fst D6) ->
  core_common g n n2 nm x1 x2 s k = Ok (Sent V4 o, s1, evs) ->
  forall m m2 nm' x2' s2 k2, reachable_db s2 -> k_fam k2 = V4 -> flow k2 = Some (pr, o_dst o, o_src o) ->
  (exists x, has_session (get_table s2 pr) S6 (o_src o) x (o_dst o)) -> (pr = TCP -> open_session (d_tcp s2) S6 (o_src o) (o_dst o)) ->
  pool4db_contains (g_pool4 g) (n_ifas m) pr (fst (o_src o)) (snd (o_src o)) = Ok true -> ~ In false (n_al m) ->
  exists s3 evs', core_common g m m2 nm' Continue x2' s2 k2 = Ok (Sent V6 (Out D6 S6), s3, evs').
Proof.
  intros g n n2 nm x1 x2 s k pr S6 D6 o s1 evs P6 Hf Fl Ca H m m2 nm' x2' s2 k2 R Hf2 Fl2 Hs Ho Hp Ha.
  destruct (out_there _ _ _ _ _ _ _ _ _ _ _ _ _ _ Hf Fl H) as (a4 & E1 & E2 & E3). destruct (canonical_back _ _ P6 Ca) as (a4' & U & F1 & F2). assert (a4' = a4) by congruence. subst a4'.
  destruct (C25_delivery_partial g m m2 nm' x2' s2 k2 pr S6 (o_src o) (o_dst o) R P6 Hf2 Fl2 ltac:(rewrite E2; exact U) Hs Ho Hp Ha) as (a6 & s3 & evs3 & G1 & G2).
  exists s3, evs3. rewrite G2. rewrite E2 in G1 |- *. cbn [fst snd] in *. assert (a6 = fst D6) by congruence. subst a6. do 4 f_equal.
  clear -E3. destruct D6 as [da dp]. cbn [fst snd] in *. destruct pr; try reflexivity. rewrite (E3 eq_refl). reflexivity.
Qed.
Print Assumptions C25_answers_partial.
