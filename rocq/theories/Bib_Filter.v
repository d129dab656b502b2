(** Claim C19: which packets from the IPv4 side get in. *)
Require Import Verif.Base Verif.Addr_Model Verif.Addr_Spec Verif.Rtrie_Model Verif.Pool4_Model Verif.Pool4_Spec Verif.Fsm_Model Verif.Bib_Model
  Verif.Rbtree_Model Verif.Rbtree_Properties Verif.Bib_Inv Verif.Bib_Steps Verif.Bib_Fate Verif.Bib_Find Verif.Bib_Add Verif.Bib_Ops Verif.Bib_Hist Verif.Bib_Spec Verif.Bib_Properties.
Local Ltac Zify.zify_post_hook ::= idtac.

Lemma bib_unique4 : forall t i j b b', inv [] t -> bibs t i = Some b -> bibs t j = Some b' -> b_src4 b = b_src4 b' -> i = j.
Proof.
  intros t i j b b' I Hi Hj E. pose proof (i4 _ _ I) as S. assert (Ii : In i (tree4 t)) by (apply in_tree4; eauto). assert (Ij : In j (tree4 t)) by (apply in_tree4; eauto).
  rewrite <- (key4_of _ _ _ Hi), <- (key4_of _ _ _ Hj) in E. induction S as [|x l S IH F]; [destruct Ii|]. rewrite Forall_forall in F. destruct Ii as [->|Ii], Ij as [->|Ij]; auto.
  - exfalso. specialize (F _ Ij). rewrite E in F. exact (lt_ta_irr _ F).
  - exfalso. specialize (F _ Ii). rewrite E in F. exact (lt_ta_irr _ F).
Qed.
Lemma talks_of : forall t bid b a, inv [] t -> bibs t bid = Some b -> talks t (b_src4 b) a <-> exists j s, sess t j = Some s /\ s_bib s = bid /\ fst (s_dst4 s) = a.
Proof.
  intros t bid b a I Hb. split.
  - intros (s6 & d6 & q & j & s & b' & Hs & Hb' & _ & E4 & _ & Ed). exists j, s. split; [exact Hs|]. split; [exact (bib_unique4 t _ _ _ _ I Hb' Hb E4)|]. rewrite Ed. reflexivity.
  - intros (j & s & Hs & <- & E). exists (b_src6 b), (s_dst6 s), (snd (s_dst4 s)), j, s, b. rewrite <- E. repeat split; auto. apply surjective_pairing.
Qed.
Lemma linked4_session : forall c p t t' bid b s0 en, bibs t bid = Some b -> linked4 c p t t' bid s0 en -> has_session t' (b_src6 b) (b_src4 b) (s_dst6 s0) (s_dst4 s0) /\
  (forall x y z w, has_session t x y z w -> has_session t' x y z w) /\ (forall x y st, has t' x y st <-> has t x y st).
Proof.
  intros c p t t' bid b s0 en Hb (sid & s & b' & A & -> & <- & _). pose proof (a_b _ _ _ _ _ A) as Ab. rewrite Hb in Ab. destruct Ab as (_ & B6 & B4 & Bs). split; [|split].
  - exists sid, s0, b'. rewrite (a_sess _ _ _ _ _ A), (a_bibs _ _ _ _ _ A), !Z.eqb_refl. auto 10.
  - intros x y z w (j & s & b1 & Hs & Hb1 & X). exists j, s. rewrite (a_sess _ _ _ _ _ A), (a_bibs _ _ _ _ _ A). destruct (Z.eqb_spec j sid) as [->|_]; [rewrite (a_s0 _ _ _ _ _ A) in Hs; discriminate|].
    destruct (Z.eqb_spec (s_bib s) (s_bib s0)) as [E|_]; [|exists b1; auto]. exists b'. rewrite E in Hb1. assert (b1 = b) by congruence. subst b1. rewrite B6, B4. auto.
  - intros x y st. split; apply has_same; intros i bi Hbi.
    + rewrite (a_bibs _ _ _ _ _ A) in Hbi. destruct (Z.eqb_spec i (s_bib s0)) as [->|N]; [|exists bi; auto]. injection Hbi as <-. exists b. auto.
    + rewrite (a_bibs _ _ _ _ _ A). destruct (Z.eqb_spec i (s_bib s0)) as [->|N]; [|exists bi; auto]. assert (bi = b) by congruence. subst bi. exists b'. auto.
Qed.

(** UDP and ICMP.  Missing: TCP ([C19_tcp_partial], [C19_tcp_refuted]). *)
Theorem C19_filtering_partial : forall c p t s4 d4 d6 now al, reachable p t -> ~ In false al -> ~ (exists s6 x, has_session t s6 s4 x d4) ->
  exists e en t', bib_add4 c p t s4 d4 d6 now al = Ok (e, en, t') /\
  (e = OK <-> used4 t s4 /\ (c_drop_by_addr c = true -> talks t s4 (fst d4))) /\
  (e = OK -> exists s6, has_session t' s6 s4 d6 d4 /\ (forall x y z w, has_session t x y z w -> has_session t' x y z w) /\ (forall x y st, has t' x y st <-> has t x y st)) /\
  (e <> OK -> t' = t /\ en = NoEntry).
Proof.
  intros c p t s4 d4 d6 now al R Ha Hn. destruct (reach_inv p t R) as [I _].
  destruct (bib_add4_ok c p t s4 d4 d6 now al I) as (e & en & t' & E & I' & _ & _ & H). exists e, en, t'. split; [exact E|].
  destruct H as [(-> & -> & -> & H)|[(-> & -> & -> & H)|(bid & b & Hb & Hi & <- & [(sid & s & L & Eb & Ed & _)|(_ & [(Na & -> & -> & ->)|(Al & -> & Lk)])])]].
  - contradiction.
  - split; [|split; [discriminate|auto]]. split; [discriminate|]. intros [U _]. apply (taken_used _ _ I) in U. contradiction.
  - exfalso. apply Hn. destruct L as [L _]. exists (b_src6 b), (s_dst6 s), sid, s, b. rewrite Eb. auto 10.
  - split; [|split; [discriminate|auto]]. split; [discriminate|]. intros [_ T]. exfalso. apply Na. destruct (c_drop_by_addr c); [right; apply (talks_of _ _ _ _ I Hb); auto|left; reflexivity].
  - split; [|split; [|congruence]].
    + split; [|auto]. intros _. split; [exists (b_src6 b), (b_static b), bid, b; auto|]. intros Ec. destruct Al as [Al|Al]; [congruence|]. apply (talks_of _ _ _ _ I Hb). exact Al.
    + intros _. exists (b_src6 b). exact (linked4_session _ _ _ _ _ _ _ _ Hb Lk).
Qed.
Print Assumptions C19_filtering_partial.
(** ... and the packets of a session always get in. *)
Theorem C19_session : forall c p t s6 s4 x d4 d6 now al, reachable p t -> has_session t s6 s4 x d4 -> ~ In false al ->
  exists en t', bib_add4 c p t s4 d4 d6 now al = Ok (OK, en, t') /\ exists e, en = Session e /\ e_src6 e = s6 /\ e_dst6 e = x /\ e_src4 e = s4 /\ e_dst4 e = d4.
Proof.
  intros c p t s6 s4 x d4 d6 now al R (j & s & b0 & Hs & Hb0 & E6 & E4 & Ex & Ed) Ha. destruct (reach_inv p t R) as [I _].
  destruct (bib_add4_ok c p t s4 d4 d6 now al I) as (e & en & t' & E & I' & _ & _ & H).
  destruct H as [(_ & _ & _ & H)|[(_ & _ & _ & H)|(bid & b & Hb & Hi & E4' & H)]].
  - contradiction.
  - exfalso. apply H. apply (taken_used _ _ I). exists s6, (b_static b0), (s_bib s), b0. auto.
  - assert (s_bib s = bid) by (apply (bib_unique4 t _ _ _ _ I Hb0 Hb); congruence). assert (b0 = b) by congruence. subst b0.
    destruct H as [(sid & s' & L & Eb & Ed' & -> & _ & _ & ->)|(H & _)]; [|exfalso; exact (H j s Hs ltac:(assumption) Ed)].
    exists (Session (entry_of c p b (set_timer s' now T_EST))), t'. split; [exact E|]. eexists. split; [reflexivity|]. destruct L as [L _].
    assert (j = sid).
    { refine (proj1 (proj2 (proj2 (C16_sessions p t R))) j sid s s' Hs L _ _); congruence. }
    subst sid. assert (s' = s) by congruence. subst s'. auto.
Qed.
Print Assumptions C19_session.
Definition conf_adf : cfg := Cfg 7200000 240000 300000 60000 true false 10 false 1.
Example C19_filtering_case : exists t, reachable UDP t /\ used4 t (four, 5000) /\ talks t (four, 5000) (fst (remote 1)) /\ ~ (exists s6 x, has_session t s6 (four, 5000) x (fst (remote 1), 81)) /\
  (exists en t', bib_add4 conf_adf UDP t (four, 5000) (fst (remote 1), 81) (remote6 1) 60 [] = Ok (OK, en, t')) /\
  bib_add4 conf_adf UDP t (four, 5000) (remote 7) (remote6 7) 60 [] = Ok (Err EPERM, NoEntry, t) /\
  (exists en t', bib_add4 conf UDP t (four, 5000) (remote 7) (remote6 7) 60 [] = Ok (OK, en, t')).
Proof.
  eexists. split; [exists udp_history; eexists; split; [wf_history|vm_compute; reflexivity]|].
  split; [eexists _, _, 2, _; split; [reflexivity|repeat split]|]. split; [eexists _, _, _, 1, _, _; split; [reflexivity|]; split; [reflexivity|repeat split]|]. split.
  { intros (s6 & x & j & s & b & Hj & _ & _ & _ & _ & E). absent Hj E. }
  split; [eexists _, _; vm_compute; reflexivity|]. split; [vm_compute; reflexivity|]. eexists _, _. vm_compute. reflexivity.
Qed.

(** TCP, when nothing is filtered by address: a SYN of no session gets in iff the
    mapping exists (else it is stored, up to a limit, in case the node calls).
    Missing: filtering by address. *)
Theorem C19_tcp_partial : forall c t s4 d4 d6 g skb now al, reachable TCP t -> c_drop_by_addr c = false -> c_drop_external_tcp c = false -> sg_syn g = true -> ~ In false al ->
  ~ (exists s6 x, has_session t s6 s4 x d4) -> states_ok t ->
  exists v en t' evs, bib_add_tcp4 c t s4 d4 d6 g skb now al = Ok (v, en, t', evs) /\
  (v = VContinue <-> used4 t s4) /\
  (v = VContinue -> exists s6, has_session t' s6 s4 d6 d4 /\ (forall x y z w, has_session t x y z w -> has_session t' x y z w) /\ (forall x y st, has t' x y st <-> has t x y st)) /\
  (v <> VContinue -> en = NoEntry /\ bibs t' = bibs t /\ sess t' = sess t).
Proof.
  intros c t s4 d4 d6 g skb now al R Hc Hx Hg Ha Hn V. destruct (reach_inv TCP t R) as [I _].
  destruct (bib_add_tcp4_ok c t s4 d4 d6 g skb now al I) as [(_ & j & s & Hj & Hv)|(v & en & t' & evs & E & I' & _ & _ & _ & H)]; [destruct (Hv (V _ _ Hj))|].
  exists v, en, t', evs. split; [exact E|].
  inversion H as [E1 E2|v0 en0 sid s b Hs Ed Hb E4 _|E1 Nt [F|F]|bid b E1 Hb Hi E4 F|E1 T _ F|E1 Nt _ _ _ _|E1 _ _ _ [Nt|F]|E1 Nt _ _|bid b en0 Hb Hi E4 _ _ F|bid b en0 Hb Hi E4 _ _ _ _ Lk]; try congruence.
  - exfalso. apply Hn. exists (b_src6 b), (s_dst6 s), sid, s, b. auto 10.
  - subst. split; [split; [discriminate|]|split; [discriminate|split; reflexivity || auto]]. intros U. apply (taken_used _ _ I) in U. contradiction.
  - subst. split; [split; [discriminate|]|split; [discriminate|auto]]. intros U. apply (taken_used _ _ I) in U. contradiction.
  - subst. split; [split; [discriminate|]|split; [discriminate|auto]]. intros U. apply (taken_used _ _ I) in U. contradiction.
  - subst. split; [|split; [|congruence]].
    + split; [|auto]. intros _. exists (b_src6 b), (b_static b), bid, b. auto.
    + intros _. exists (b_src6 b). exact (linked4_session _ _ _ _ _ _ _ _ Hb Lk).
Qed.
Print Assumptions C19_tcp_partial.
Definition tcp_history : list (cfg * op) := [(conf, OTcp6 masks3 (a6 1, 1000) (remote6 1) (remote 1) syn6 10 [])].
Lemma tcp_history_states : forall t evs, run TCP init_table tcp_history = Ok (t, evs) -> states_ok t.
Proof.
  intros t evs E. refine (run_P TCP states_ok tcp_history init_table _ _ _ _ init_inv _ E); [wf_history| |intros j s; discriminate]. intros c o [X|[]]; injection X as _ <-; apply states_closed; exact Logic.I.
Qed.
Example C19_tcp_case : exists t evs en t', run TCP init_table tcp_history = Ok (t, evs) /\ used4 t (four, 5000) /\ ~ (exists s6 x, has_session t s6 (four, 5000) x (remote 7)) /\
  bib_add_tcp4 conf t (four, 5000) (remote 7) (remote6 7) syn4 99 60 [] = Ok (VContinue, en, t', []).
Proof.
  eexists _, _, _, _. split; [vm_compute; reflexivity|]. split; [eexists _, _, 1, _; split; [reflexivity|repeat split]|]. split; [|vm_compute; reflexivity].
  intros (s6 & x & j & s & b & Hj & _ & _ & _ & _ & E). absent Hj E.
Qed.

(** With filtering by address, a SYN from a host the node is in touch with does not
    get in (it is stored, and dropped unless the node answers it), whereas other
    segments of no session, from hosts unknown, do. *)
Theorem C19_tcp_refuted :
  (exists c t s4 d4 d6 g skb now en t', reachable TCP t /\ states_ok t /\ c_drop_by_addr c = true /\ c_drop_external_tcp c = false /\ sg_syn g = true /\
    used4 t s4 /\ talks t s4 (fst d4) /\ bib_add_tcp4 c t s4 d4 d6 g skb now [] = Ok (VStolen, en, t', [])) /\
  (exists c t s4 d4 d6 g skb now e, reachable TCP t /\ states_ok t /\ c_drop_by_addr c = true /\ used4 t s4 /\ ~ talks t s4 (fst d4) /\
    bib_add_tcp4 c t s4 d4 d6 g skb now [] = Ok (VContinue, e, t, [])).
Proof.
  split.
  - exists conf_adf. eexists _, (four, 5000), (fst (remote 1), 81), (remote6 1), syn4, 99, 60, _, _.
    split; [exists tcp_history; eexists; split; [wf_history|vm_compute; reflexivity]|]. split; [eapply tcp_history_states; vm_compute; reflexivity|]. split; [reflexivity|]. split; [reflexivity|]. split; [reflexivity|].
    split; [eexists _, _, 1, _; split; [reflexivity|repeat split]|]. split; [eexists _, _, _, 0, _, _; split; [reflexivity|]; split; [reflexivity|repeat split]|]. vm_compute. reflexivity.
  - exists conf_adf. eexists _, (four, 5000), (remote 7), (remote6 7), (Seg V4 false false false), 99, 60, _.
    split; [exists tcp_history; eexists; split; [wf_history|vm_compute; reflexivity]|]. split; [eapply tcp_history_states; vm_compute; reflexivity|]. split; [reflexivity|].
    split; [eexists _, _, 1, _; split; [reflexivity|repeat split]|]. split; [|vm_compute; reflexivity].
    intros (s6 & x & q & j & s & b & Hj & _ & _ & _ & _ & E). absent Hj E.
Qed.
Print Assumptions C19_tcp_refuted.
