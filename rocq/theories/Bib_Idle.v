(** C21, between cleanings: how long a session that nobody uses may be in the tables. *)
Require Import Verif.Base Verif.Addr_Model Verif.Addr_Spec Verif.Rtrie_Model Verif.Pool4_Model Verif.Pool4_Spec Verif.Fsm_Model Verif.Bib_Model
  Verif.Bib_Inv Verif.Bib_Steps Verif.Bib_Fate Verif.Bib_Find Verif.Bib_Add Verif.Bib_Ops Verif.Bib_Hist Verif.Bib_Time
  Verif.Bib_Spec Verif.Bib_Properties Verif.Bib_Life.
Local Ltac Zify.zify_post_hook ::= idtac.

(** Every session has been heard of since [T0], or had not expired by then. *)
Definition alive (c0 : cfg) (p : proto) (T0 : Z) (t : tb) : Prop := forall j s, sess t j = Some s -> T0 <= s_time s \/ T0 < s_time s + get_timeout c0 p (s_exp s).
(** joold's news are not older than that. *)
Definition news (T0 : Z) (o : op) : Prop := match o with OSync e _ _ => T0 <= e_time e | _ => True end.

Lemma alive_less : forall c0 p T0 t t', alive c0 p T0 t -> (forall j s, sess t' j = Some s -> sess t j = Some s) -> alive c0 p T0 t'.
Proof. intros c0 p T0 t t' A H j s Hs. exact (A j s (H j s Hs)). Qed.
Lemma alive_kept : forall c0 p T0 t t' i s', alive c0 p T0 t -> kept t t' i s' -> T0 <= s_time s' \/ T0 < s_time s' + get_timeout c0 p (s_exp s') -> alive c0 p T0 t'.
Proof. intros c0 p T0 t t' i s' A K H j s. rewrite (k_sess _ _ _ _ K). destruct (j =? i); [intros X; injection X as <-; exact H|apply A]. Qed.

Lemma alive_closed : forall c0 p T0 c o, (timed o = true -> T0 <= op_now o) -> news T0 o -> closed c p o (alive c0 p T0).
Proof.
  intros c0 p T0 c o Hn Hs. constructor.
  - intros D t t' i s b r I I' L Hb R F A. assert (Hd : timed o = true) by (destruct o; try reflexivity; destruct R). specialize (Hn Hd).
    assert (X : match snd r with FATE_TIMER_SLOW => T0 <= e_time (fst r) | FATE_PRESERVE | FATE_DROP => e_time (fst r) = s_time s | _ => True end).
    { destruct o; cbn [reacts] in R; try discriminate.
      + subst r. exact Logic.I.
      + subst r. exact Logic.I.
      + destruct R as [_ ->]. pose proof (tsm_fates (c_handle_rst c) g (entry_of c p b s)) as X. pose proof (tsm_time (c_handle_rst c) g (entry_of c p b s)) as [Y _]. destruct (snd _); auto; contradiction.
      + destruct R as [_ ->]. pose proof (tsm_fates (c_handle_rst c) g (entry_of c p b s)) as X. pose proof (tsm_time (c_handle_rst c) g (entry_of c p b s)) as [Y _]. destruct (snd _); auto; contradiction.
      + subst r. unfold collision_cb. destruct (session_equals _ _); cbn [fst snd e_timer e_time]; [exact Hs|reflexivity].
      + destruct R as (k & _ & ->). unfold expire_cb. destruct p, k; try exact Logic.I. unfold tcp_est_expire_cb. destruct (_ =? _); exact Logic.I. }
    assert (Hi : sess t i = Some s) by apply L.
    unfold fate_done in F. destruct (snd r).
    all: try (destruct F as [K _]; eapply alive_kept; [exact A|exact K|]; cbn [after s_time s_exp]; try (left; lia); rewrite X; exact (A i s Hi)).
    + eapply alive_less; [exact A|]. intros j s0. rewrite (g_sess _ _ _ _ F). destruct (j =? i); [discriminate|auto].
    + destruct (same_timer T_BAD (e_timer (fst r))); destruct F as [K _]; (eapply alive_kept; [exact A|exact K|]; cbn [after s_time s_exp]; left; exact X).
  - intros D t t' sid s b' I I' Ad _ C Hp A j s0. rewrite (a_sess _ _ _ _ _ Ad). destruct (j =? sid); [|apply A]. intros X. injection X as <-. left.
    assert (Hd : timed o = true) by (destruct o; try reflexivity; destruct C). specialize (Hn Hd).
    destruct o; cbn [creates news op_now] in *; try discriminate; try contradiction.
    + destruct C as (_ & _ & _ & -> & _). exact Hn.
    + destruct C as (_ & _ & _ & -> & _). exact Hn.
    + destruct C as (_ & _ & -> & _). exact Hn.
    + destruct C as (_ & _ & _ & ->). exact Hn.
    + destruct C as (_ & _ & _ & -> & _). exact Hs.
  - intros t t1 w masks bdl evs I Pr _ A. eapply alive_less; [exact A|]. intros j s. rewrite (p_sess _ _ _ _ _ _ Pr). auto.
  - intros D t t' I Hb Hss H4 Hl Hq A. eapply alive_less; [exact A|]. intros j s Hj. apply Hss in Hj. apply Hj.
  - intros t t' l I R _ A. eapply alive_less; [exact A|]. intros j s Hj. apply (r_sess _ _ _ R) in Hj. apply Hj.
  - intros t q n A _. exact A.
  - intros t t' s6 s4 evs I St A. pose proof (static_sess _ _ _ _ _ _ St) as Es. unfold alive. rewrite Es. exact A.
Qed.

Lemma alive_run : forall c0 p T0 h T t t' evs, wf h -> T0 <= T -> clock T h -> (forall c o, In (c, o) h -> news T0 o) -> inv [] t -> alive c0 p T0 t -> run p t h = Ok (t', evs) -> alive c0 p T0 t'.
Proof.
  intros c0 p T0 h. induction h as [|(c, o) h IH]; intros T t t' evs W HT C N I A E; cbn [run clock] in *.
  - injection E as <- <-. exact A.
  - apply Forall_cons_iff in W. destruct W as [W1 W2]. cbn [snd] in W1. destruct (step_ok c p o t W1 I) as [(E1 & _)|(x & t1 & e1 & E1 & [I1 _ _ _])]; rewrite E1 in E; cbn [bind] in E; [discriminate|].
    destruct (run p t1 h) as [(t2, e2)| |] eqn:E2; cbn [bind fst snd] in E; try discriminate. injection E as <- <-.
    pose proof (N c o (or_introl eq_refl)) as No. assert (N' : forall c o, In (c, o) h -> news T0 o) by (intros c' o' X; exact (N c' o' (or_intror X))).
    assert (A1 : (timed o = true -> T0 <= op_now o) -> alive c0 p T0 t1).
    { intros X. apply (step_P c p o (alive c0 p T0) t x t1 e1 W1); auto. apply alive_closed; auto. }
    destruct (timed o) eqn:Et.
    + destruct C as (C1 & C2 & C3). apply (IH (op_now o) t1 t2 e2 W2 ltac:(lia) C3 N' I1); [|exact E2]. apply A1. intros _. lia.
    + apply (IH T t1 t2 e2 W2 HT C N' I1); [|exact E2]. apply A1. discriminate.
Qed.

(** A cleaning at [now], and then anything: other cleanings, packets, changes of the configuration, joold. No session in the table had expired before that
    cleaning, by the configuration it was done with. So, as the timer cleans every two seconds, none is there two seconds after it has expired. Missing, as for
    [C21_expiration_partial]: joold's news from the future; and news older than the cleaning. *)
Theorem C21_idle_partial : forall p h1 h2 c now al t0 e0 t1 e1 t2 e2, wf h1 -> clock 0 h1 -> run p init_table h1 = Ok (t0, e0) -> last_time 0 h1 <= now < 2^62 -> sane c ->
  clean_table c p t0 now al = Ok (t1, e1) -> wf h2 -> clock now h2 -> (forall c' e b a, In (c', OSync e b a) h2 -> now <= e_time e) -> run p t1 h2 = Ok (t2, e2) ->
  forall j s T, sess t2 j = Some s -> T < now -> ~ expired c p s T.
Proof.
  intros p h1 h2 c now al t0 e0 t1 e1 t2 e2 W1 C1 E1 Hn Hs Ec W2 C2 N E2 j s T Hj HT X.
  destruct (run_ok p h1 _ _ _ W1 init_inv E1) as (I0 & _).
  assert (O0 : ord now t0) by (eapply ord_mono; [exact (run_ord p h1 0 init_table t0 e0 W1 C1 init_inv ord_init E1)|lia]).
  destruct (clean_exact c p t0 now al (sane_cfg c Hs) ltac:(lia) I0 O0) as (t' & e' & Ec' & I1 & _ & _ & H & _). rewrite Ec in Ec'. injection Ec' as <- <-.
  assert (A : alive c p now t1).
  { intros i u Hu. right. specialize (H i u Hu). unfold elapsed in H. lia. }
  assert (N' : forall c' o, In (c', o) h2 -> news now o) by (intros c' o Ho; destruct o; cbn [news]; try exact Logic.I; eapply N; exact Ho).
  pose proof (alive_run c p now h2 now t1 t2 e2 W2 ltac:(lia) C2 N' I1 A E2 j s Hj) as Y. apply (expired_elapsed c p s T Hs) in X. unfold elapsed in X.
  assert (0 <= get_timeout c p (s_exp s)); [|lia].
  destruct Hs as (S0 & S1 & S2 & S3 & S4). unfold get_timeout. apply mtj; [exact S0|]. unfold TCP_INCOMING_SYN. destruct p, (s_exp s); lia.
Qed.
Print Assumptions C21_idle_partial.

(** One of two sessions expires at 300010 and is gone at 300012; the other is used at 300030. *)
Example C21_idle_case : exists t0 e0 t1 e1 t2 e2 s1 s3, let h2 := [(conf, OAdd4 (four, 5000) (remote 2) (remote6 2) 300030 [])] in
  wf udp_history /\ clock 0 udp_history /\ run UDP init_table udp_history = Ok (t0, e0) /\ sane conf /\ clean_table conf UDP t0 300012 [] = Ok (t1, e1) /\ wf h2 /\ clock 300012 h2 /\
  run UDP t1 h2 = Ok (t2, e2) /\ sess t0 1 = Some s1 /\ expired conf UDP s1 300011 /\ sess t2 1 = None /\ sess t2 3 = Some s3 /\ ~ expired conf UDP s3 300011.
Proof.
  eexists _, _, _, _, _, _, _, _. cbv zeta. split; [wf_history|]. split; [cbn; intuition (try lia; discriminate)|]. split; [vm_compute; reflexivity|]. split; [unfold sane; cbn; lia|].
  split; [vm_compute; reflexivity|]. split; [wf_history|]. split; [cbn; intuition (try lia; discriminate)|]. split; [vm_compute; reflexivity|]. split; [vm_compute; reflexivity|]. split; [unfold expired; cbn; lia|].
  split; [vm_compute; reflexivity|]. split; [vm_compute; reflexivity|]. unfold expired; cbn; lia.
Qed.
