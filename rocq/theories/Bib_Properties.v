(** Claims C15 to C19: what a BIB table contains. *)
Require Import Verif.Base Verif.Addr_Model Verif.Addr_Spec Verif.Rtrie_Model Verif.Pool4_Model Verif.Pool4_Spec Verif.Fsm_Model Verif.Bib_Model
  Verif.Rbtree_Model Verif.Rbtree_Properties Verif.Bib_Inv Verif.Bib_Steps Verif.Bib_Fate Verif.Bib_Find Verif.Bib_Add Verif.Bib_Ops Verif.Bib_Hist Verif.Bib_Spec.
From Coq Require Import Sorting.Sorted.
Local Ltac Zify.zify_post_hook ::= idtac.

(** ** Material for the examples *)
Definition a6 (n : Z) : Z := 0x20010db8000000000000000000000000 + n.
Definition p6 (n : Z) : Z := 0x0064ff9b000000000000000000000000 + n.
Definition four : Z := 0xc0000201.
Definition masks3 : domain := Dom 0 3 0 0 [Rg four 32 5000 5002] 0 4999 false.
Definition conf : cfg := Cfg 7200000 240000 300000 60000 false false 10 false 1.
Definition remote (n : Z) : ta := (0xcb007100 + n, 80).
Definition remote6 (n : Z) : ta := (p6 (0xcb007100 + n), 80).
Definition udp_history : list (cfg * op) :=
  [ (conf, OStatic (a6 9, 53) (four, 5001) []);
    (conf, OAdd6 masks3 (a6 1, 1000) (remote6 1) (remote 1) 10 []);
    (conf, OAdd6 masks3 (a6 2, 1000) (remote6 1) (remote 1) 20 []);
    (conf, OAdd4 (four, 5000) (remote 2) (remote6 2) 30 []);
    (conf, OSync (SE (a6 3, 7) (remote6 1) (four, 9) (remote 1) 0 T_EST 15 0 false) 40 []) ].

Example masks3_offers : offers masks3 [(four, 5000, false); (four, 5001, true); (four, 5002, true)].
Proof. split; [vm_compute; reflexivity|]. cbn. repeat split; try congruence; try discriminate; intros [= H]; discriminate. Qed.
Ltac absent Hb E := cbv in Hb; repeat match type of Hb with context [if ?c then _ else _] => destruct c end; try discriminate Hb; injection Hb as <-; vm_compute in E; discriminate E.
Ltac wf_history := repeat constructor; try (eexists; exact masks3_offers).
Example udp_reachable : exists t, reachable UDP t /\ has t (a6 1, 1000) (four, 5000) false /\ has t (a6 2, 1000) (four, 5002) false /\ has t (a6 9, 53) (four, 5001) true /\
  has t (a6 3, 7) (four, 9) false /\ has_session t (a6 1, 1000) (four, 5000) (remote6 2) (remote 2).
Proof.
  eexists. split; [exists udp_history; eexists; split; [wf_history|vm_compute; reflexivity]|].
  split; [exists 2; eexists; split; [reflexivity|repeat split]|]. split; [exists 4; eexists; split; [reflexivity|repeat split]|].
  split; [exists 0; eexists; split; [reflexivity|repeat split]|]. split; [exists 7; eexists; split; [reflexivity|repeat split]|].
  exists 5. eexists _, _. split; [reflexivity|]. split; [reflexivity|repeat split].
Qed.

(** ** Basics *)
Lemma reach_inv : forall p t, reachable p t -> inv [] t /\ dyn t.
Proof. intros p t (h & evs & W & E). destruct (run_ok p h _ _ _ W init_inv E) as (I & D & _). split; [exact I|apply D; exact init_dyn]. Qed.
Lemma in_tree4 : forall t i, inv [] t -> In i (tree4 t) <-> exists b, bibs t i = Some b.
Proof. intros t i I. rewrite (in4 _ _ I). destruct (bibs t i) as [b|]; split; [eauto|intros _; split; [discriminate|intros []]|intros [H _]; congruence|intros (b & H); discriminate]. Qed.
Lemma in_tree6 : forall t i, inv [] t -> In i (tree6 t) <-> exists b, bibs t i = Some b.
Proof. intros t i I. rewrite (in6 _ _ I). destruct (bibs t i) as [b|]; split; [eauto|intros _; split; [discriminate|intros []]|intros [H _]; congruence|intros (b & H); discriminate]. Qed.
Lemma key4_of : forall t i b, bibs t i = Some b -> key4 t i = b_src4 b.
Proof. intros t i b H. unfold key4. rewrite H. reflexivity. Qed.
Lemma key6_of : forall t i b, bibs t i = Some b -> key6 t i = b_src6 b.
Proof. intros t i b H. unfold key6. rewrite H. reflexivity. Qed.
Lemma taken_used : forall t m, inv [] t -> taken t m <-> used4 t m.
Proof.
  intros t m I. split.
  - intros (i & Hi & E). apply (in_tree4 _ _ I) in Hi. destruct Hi as (b & Hb). exists (b_src6 b), (b_static b), i, b. rewrite (key4_of _ _ _ Hb) in E. auto.
  - intros (s6 & st & i & b & Hb & _ & E & _). exists i. split; [apply (in_tree4 _ _ I); eauto|]. rewrite (key4_of _ _ _ Hb). exact E.
Qed.
Lemma run_app : forall p h1 h2 t, run p t (h1 ++ h2) = bind (run p t h1) (fun r => bind (run p (fst r) h2) (fun r' => Ok (fst r', snd r ++ snd r'))).
Proof.
  intros p h1. induction h1 as [|(c, o) h1 IH]; intros h2 t; cbn [app run bind fst snd].
  - destruct (run p t h2) as [(t', e)| |]; reflexivity.
  - destruct (step c p t o) as [((x, t1), e1)| |]; cbn [bind]; try reflexivity. rewrite IH. destruct (run p t1 h1) as [(t2, e2)| |]; cbn [bind fst snd]; try reflexivity.
    destruct (run p t2 h2) as [(t3, e3)| |]; cbn [bind fst snd]; try reflexivity. rewrite app_assoc. reflexivity.
Qed.
Lemma reachable_app : forall p t h t' evs, reachable p t -> wf h -> run p t h = Ok (t', evs) -> reachable p t'.
Proof.
  intros p t h t' evs (h0 & e0 & W0 & E0) W E. exists (h0 ++ h), (e0 ++ evs). split; [apply Forall_app; auto|]. rewrite run_app, E0. cbn [bind fst snd]. rewrite E. reflexivity.
Qed.

(** ** C15 *)
Theorem C15_one_to_one : forall p t, reachable p t -> forall i j b b', bibs t i = Some b -> bibs t j = Some b' ->
  b_src6 b = b_src6 b' \/ b_src4 b = b_src4 b' -> i = j.
Proof.
  intros p t R i j b b' Hi Hj E. destruct (reach_inv p t R) as [I _].
  assert (U : forall key l, srt key l -> In i l -> In j l -> key i = key j -> i = j).
  { intros key l S Ii Ij Ek. induction S as [|x l S IH F]; [destruct Ii|]. rewrite Forall_forall in F. destruct Ii as [->|Ii], Ij as [->|Ij]; auto.
    - exfalso. specialize (F _ Ij). rewrite Ek in F. exact (lt_ta_irr _ F).
    - exfalso. specialize (F _ Ii). rewrite Ek in F. exact (lt_ta_irr _ F). }
  destruct E as [E|E].
  - apply (U (key6 t) (tree6 t) (i6 _ _ I)); [apply in_tree6; eauto..|]. rewrite (key6_of _ _ _ Hi), (key6_of _ _ _ Hj). exact E.
  - apply (U (key4 t) (tree4 t) (i4 _ _ I)); [apply in_tree4; eauto..|]. rewrite (key4_of _ _ _ Hi), (key4_of _ _ _ Hj). exact E.
Qed.
Print Assumptions C15_one_to_one.
Corollary has_unique : forall p t, reachable p t -> forall s6 s4 st s6' s4' st', has t s6 s4 st -> has t s6' s4' st' -> s6 = s6' \/ s4 = s4' -> s6 = s6' /\ s4 = s4' /\ st = st'.
Proof.
  intros p t R s6 s4 st s6' s4' st' (i & b & Hi & <- & <- & <-) (j & b' & Hj & <- & <- & <-) E. rewrite (C15_one_to_one p t R i j b b' Hi Hj E) in Hi. assert (b = b') by congruence. subst. auto.
Qed.

(** Both indexes hold exactly the entries that exist, each once. *)
Theorem C15_indexes : forall p t, reachable p t -> NoDup (tree6 t) /\ NoDup (tree4 t) /\
  forall i, (In i (tree6 t) <-> exists b, bibs t i = Some b) /\ (In i (tree4 t) <-> exists b, bibs t i = Some b).
Proof.
  intros p t R. destruct (reach_inv p t R) as [I _]. split; [exact (srt_nodup _ _ (i6 _ _ I))|]. split; [exact (srt_nodup _ _ (i4 _ _ I))|].
  intros i. split; [apply in_tree6; exact I|apply in_tree4; exact I].
Qed.
Print Assumptions C15_indexes.

(** Lookups by either address always work, and both tell the same. *)
Theorem C15_lookup : forall p t, reachable p t ->
  (forall s6, bib_find6 t s6 = Ok None /\ ~ used6 t s6 \/ exists s4 st, bib_find6 t s6 = Ok (Some (s6, s4, st)) /\ has t s6 s4 st) /\
  (forall s4, bib_find4 t s4 = Ok None /\ ~ used4 t s4 \/ exists s6 st, bib_find4 t s4 = Ok (Some (s6, s4, st)) /\ has t s6 s4 st) /\
  (forall s6 s4 st, bib_find6 t s6 = Ok (Some (s6, s4, st)) <-> bib_find4 t s4 = Ok (Some (s6, s4, st))).
Proof.
  intros p t R. destruct (reach_inv p t R) as [I _].
  assert (F6 : forall s6, bib_find6 t s6 = Ok None /\ ~ used6 t s6 \/ exists s4 st, bib_find6 t s6 = Ok (Some (s6, s4, st)) /\ has t s6 s4 st).
  { intros s6. unfold bib_find6. destruct (find6 [] t s6 I) as (o & n & E & H). rewrite E. cbn [bind fst]. destruct o as [i|]; cbn [hit] in H.
    - right. destruct H as [H K]. apply nth_error_In in H. apply (in_tree6 _ _ I) in H. destruct H as (b & Hb). unfold getb. rewrite Hb. cbn [bind].
      rewrite (key6_of _ _ _ Hb) in K. exists (b_src4 b), (b_static b). rewrite K. split; [reflexivity|]. exists i, b. auto.
    - left. split; [reflexivity|]. intros (s4 & st & i & b & Hb & E6 & _). apply (belongs_free6 [] t s6 n I H). exists i. split; [apply in_tree4; eauto|]. rewrite (key6_of _ _ _ Hb). exact E6. }
  assert (F4 : forall s4, bib_find4 t s4 = Ok None /\ ~ used4 t s4 \/ exists s6 st, bib_find4 t s4 = Ok (Some (s6, s4, st)) /\ has t s6 s4 st).
  { intros s4. unfold bib_find4. destruct (find4 [] t s4 I) as (o & n & E & H). rewrite E. cbn [bind fst]. destruct o as [i|]; cbn [hit] in H.
    - right. destruct H as [H K]. apply nth_error_In in H. apply (in_tree4 _ _ I) in H. destruct H as (b & Hb). unfold getb. rewrite Hb. cbn [bind].
      rewrite (key4_of _ _ _ Hb) in K. exists (b_src6 b), (b_static b). rewrite K. split; [reflexivity|]. exists i, b. auto.
    - left. split; [reflexivity|]. intros U. apply (taken_used _ _ I) in U. exact (belongs_free t s4 n H U). }
  split; [exact F6|]. split; [exact F4|]. intros s6 s4 st. split; intros E.
  - destruct (F6 s6) as [[E' _]|(x & st' & E' & H)]; rewrite E' in E; [discriminate|]. injection E as -> ->. destruct (F4 s4) as [[_ N]|(y & st' & E4 & H')].
    + exfalso. apply N. exists s6, st. exact H.
    + destruct (has_unique p t R _ _ _ _ _ _ H H' (or_intror eq_refl)) as (<- & _ & <-). exact E4.
  - destruct (F4 s4) as [[E' _]|(x & st' & E' & H)]; rewrite E' in E; [discriminate|]. injection E as -> ->. destruct (F6 s6) as [[_ N]|(y & st' & E4 & H')].
    + exfalso. apply N. exists s4, st. exact H.
    + destruct (has_unique p t R _ _ _ _ _ _ H H' (or_introl eq_refl)) as (_ & <- & <-). exact E4.
Qed.
Print Assumptions C15_lookup.

(** ** C16 *)
Theorem C16_sessions : forall p t, reachable p t ->
  (* every session is listed by its entry and by no other *)
  (forall j s, sess t j = Some s -> exists b, bibs t (s_bib s) = Some b /\ In j (b_sess b) /\ forall i b', bibs t i = Some b' -> In j (b_sess b') -> i = s_bib s) /\
  (* an entry lists only sessions that exist, each once *)
  (forall i b, bibs t i = Some b -> NoDup (b_sess b) /\ forall j, In j (b_sess b) -> exists s, sess t j = Some s /\ s_bib s = i) /\
  (* an entry has one session per remote end *)
  (forall j j' s s', sess t j = Some s -> sess t j' = Some s' -> s_bib s = s_bib s' -> s_dst4 s = s_dst4 s' -> j = j') /\
  (* and every session waits on exactly one expiration list *)
  (forall j s k, sess t j = Some s -> s_exp s <> T_BAD /\ (In j (list_of t k) <-> k = s_exp s)) /\
  (forall k, NoDup (list_of t k) /\ forall j, In j (list_of t k) -> exists s, sess t j = Some s).
Proof.
  intros p t R. destruct (reach_inv p t R) as [I _]. split; [|split; [|split; [|split]]].
  - intros j s Hj. pose proof (isb _ _ I _ _ Hj) as Hb. destruct (bibs t (s_bib s)) as [b|] eqn:Eb; [|congruence]. exists b. split; [reflexivity|].
    split; [apply (ibs _ _ I _ _ Eb); eauto|]. intros i b' Hi Hin. apply (ibs _ _ I _ _ Hi) in Hin. destruct Hin as (s' & H1 & H2). assert (s' = s) by congruence. congruence.
  - intros i b Hi. split; [exact (srt_nodup _ _ (isr _ _ I _ _ Hi))|]. intros j Hj. apply (ibs _ _ I _ _ Hi). exact Hj.
  - intros j j' s s' Hj Hj' Eb Ed. pose proof (isb _ _ I _ _ Hj) as Hb. destruct (bibs t (s_bib s)) as [b|] eqn:E; [|congruence].
    assert (I1 : In j (b_sess b)) by (apply (ibs _ _ I _ _ E); eauto). assert (I2 : In j' (b_sess b)) by (apply (ibs _ _ I _ _ E); eauto).
    pose proof (isr _ _ I _ _ E) as S. assert (Ek : keys t j = keys t j') by (unfold keys; rewrite Hj, Hj'; exact Ed). clear - S I1 I2 Ek.
    induction S as [|x l S IH F]; [destruct I1|]. rewrite Forall_forall in F. destruct I1 as [->|I1], I2 as [->|I2]; auto.
    + exfalso. specialize (F _ I2). rewrite Ek in F. exact (lt_ta_irr _ F).
    + exfalso. specialize (F _ I1). rewrite Ek in F. exact (lt_ta_irr _ F).
  - intros j s k Hj. assert (Hl : forall k, In j (list_of t k) <-> k = s_exp s).
    { intros k'. rewrite (ill _ _ I). split; [intros (s' & H1 & H2 & _); congruence|intros ->; exists s; repeat split; [exact Hj|intros []]]. }
    split; [|apply Hl]. intros E. specialize (Hl T_BAD). rewrite E in Hl. destruct (proj2 Hl eq_refl).
  - intros k. split; [apply (iln _ _ I)|]. intros j Hj. apply (ill _ _ I) in Hj. destruct Hj as (s & Hs & _). eauto.
Qed.
Print Assumptions C16_sessions.

(** ** C17 *)
(** A dynamic entry always has a session... *)
Theorem C17_dynamic : forall p t, reachable p t -> forall s6 s4, has t s6 s4 false -> exists d6 d4, has_session t s6 s4 d6 d4.
Proof.
  intros p t R s6 s4 (i & b & Hi & <- & <- & St). destruct (reach_inv p t R) as [I D]. assert (Hin : In i (tree4 t)) by (apply in_tree4; eauto).
  pose proof (D i b Hin Hi St) as Hn. destruct (b_sess b) as [|j l] eqn:El; [congruence|]. assert (Hj : In j (b_sess b)) by (rewrite El; left; reflexivity).
  apply (ibs _ _ I _ _ Hi) in Hj. destruct Hj as (s & Hs & E). exists (s_dst6 s), (s_dst4 s), j, s, b. subst i. auto 10.
Qed.
Print Assumptions C17_dynamic.

(** ... and a static one stays until its removal is asked for.  Missing: packets
    from its IPv6 node when pool4 is empty and its IPv4 address is not one of the
    node's own ([C17_static_refuted]). *)
Lemma has_mapped : forall t s6 s4 st, inv [] t -> has t s6 s4 st <-> exists x, mapped t x s6 s4 st.
Proof.
  intros t s6 s4 st I. split.
  - intros (i & b & Hb & E). exists i. split; [apply in_tree4; eauto|]. exists b. auto.
  - intros (i & _ & b & H). exists i, b. exact H.
Qed.
Lemma static_closed : forall c p o s6 s4, ~ asked_to_remove o s6 s4 -> ~ outgrown o s6 s4 -> closed c p o (fun t => exists x, mapped t x s6 s4 true).
Proof.
  intros c p o s6 s4 Na Ng. constructor.
  - intros D t t' i s b r I I' L Hb R F (x & H). exists x. exact (proj2 (fate_maps _ _ _ _ _ _ _ _ F Hb) _ _ _ _ H (or_introl eq_refl)).
  - intros D t t' sid s b' I I' A _ _ _ (x & Hx & b & Hb & E6 & E4 & Es). exists x. split; [apply (a_t4 _ _ _ _ _ A); left; exact Hx|].
    rewrite (a_bibs _ _ _ _ _ A). destruct (Z.eqb_spec x (s_bib s)) as [->|N]; [|eauto 10]. pose proof (a_b _ _ _ _ _ A) as Ab. rewrite Hb in Ab. destruct Ab as (_ & A6 & A4 & As). exists b'. repeat split; congruence.
  - intros t t1 w masks bdl evs I Pr Hd (x & Hx & b & Hb & E6 & E4 & Es). exists x. split; [|exists b; rewrite (p_bibs _ _ _ _ _ _ Pr); auto]. rewrite (p_t4 _ _ _ _ _ _ Pr). apply drop_in. split; [exact Hx|].
    destruct Hd as [->|(d & bid & b0 & Ha & -> & Hb0 & Hi)]; [intros []|]. intros [<-|[]]. assert (b0 = b) by congruence. subst b0. apply Ng. unfold issue216_needed in Hi. apply andb_true_iff in Hi. destruct Hi as [Hi1 Hi2]. apply negb_true_iff in Hi2.
    destruct o; cbn [adds6 outgrown] in *; try discriminate; injection Ha as -> ->; rewrite <- E6, <- E4; auto.
  - intros D t t' I Hb' _ Ht _ _ (x & Hx & b & Hb & E). exists x. split; [rewrite Ht; exact Hx|]. exists b. split; [|exact E]. rewrite Hb'. destruct (mem_id x D) eqn:Em; [|exact Hb].
    apply mem_in in Em. apply (in4 _ _ I) in Hx. destruct Hx as [_ Hx]. destruct (Hx Em).
  - intros t t' l I R Hl (x & Hx & b & Hb & E6 & E4 & Es). exists x. assert (Nx : ~ In x l).
    { intros C. apply Na. specialize (Hl x C). rewrite (key6_of _ _ _ Hb), (key4_of _ _ _ Hb), E6, E4 in Hl. exact Hl. }
    split; [rewrite (r_t4 _ _ _ R); apply drop_in; auto|]. exists b. rewrite (r_bibs _ _ _ R). destruct (mem_id x l) eqn:Em; [apply mem_in in Em; destruct (Nx Em)|auto].
  - intros t q n (x & H) _. exists x. exact H.
  - intros t t' a6 a4 evs I St (x & Hx & b & Hb & E6 & E4 & Es). inversion St as [|i b0 H1 H2 H3 H4 Et H5| |i H1 H2 H3 H4 H5 H6 H7 H8 H9 H10 H11].
    + rewrite Et. exists x. split; [exact Hx|]. cbn [put_bib set_bibs bibs]. unfold upd. destruct (Z.eqb_spec x i) as [->|N]; [|eauto 10]. assert (b0 = b) by congruence. subst b0. eexists. split; [reflexivity|]. cbn [b_src6 b_src4 b_static]. repeat split; congruence.
    + exists x. split; [apply H4; right; exact Hx|]. rewrite H2. unfold upd. destruct (Z.eqb_spec x i) as [->|N]; [congruence|eauto 10].
Qed.
Theorem C17_static_partial : forall p t h t' evs s6 s4, reachable p t -> has t s6 s4 true ->
  wf h -> (forall c o, In (c, o) h -> ~ asked_to_remove o s6 s4 /\ ~ outgrown o s6 s4) ->
  run p t h = Ok (t', evs) -> has t' s6 s4 true.
Proof.
  intros p t h t' evs s6 s4 R H W Hh E. destruct (reach_inv p t R) as [I _]. destruct (reach_inv p t' (reachable_app _ _ _ _ _ R W E)) as [I' _].
  apply (has_mapped _ _ _ _ I) in H. apply (has_mapped _ _ _ _ I').
  apply (run_P p (fun u => exists x, mapped u x s6 s4 true) h t t' evs W); auto. intros c o Hi. destruct (Hh c o Hi) as [H1 H2]. apply static_closed; assumption.
Qed.
Print Assumptions C17_static_partial.
Definition masks_dyn : domain := Dom 0 3 0 0 [Rg four 32 5000 5002] 0 4999 true.
Example masks_dyn_offers : offers masks_dyn [(four, 5000, false); (four, 5001, true); (four, 5002, true)].
Proof. split; [vm_compute; reflexivity|]. cbn. repeat split; try congruence; try discriminate; intros [= H]; discriminate. Qed.
Example C17_static_case : exists t t' evs h, reachable UDP t /\ has t (a6 9, 53) (four, 5001) true /\ wf h /\ (forall c o, In (c, o) h -> ~ asked_to_remove o (a6 9, 53) (four, 5001) /\ ~ outgrown o (a6 9, 53) (four, 5001)) /\
  run UDP t h = Ok (t', evs) /\ ~ used6 t' (a6 1, 1000) /\ length h = 4%nat.
Proof.
  eexists _, _, _, [(conf, OClean 400000 []); (conf, ORmRange (P4 four 32) 5000 5000); (conf, OAdd6 masks_dyn (a6 9, 53) (remote6 5) (remote 5) 400001 []); (conf, OClean 900000 [])].
  split; [exists udp_history; eexists; split; [wf_history|vm_compute; reflexivity]|]. split; [exists 0; eexists; split; [reflexivity|repeat split]|].
  split; [repeat constructor; eexists; exact masks_dyn_offers|]. split.
  { intros c o [E|[E|[E|[E|[]]]]]; injection E as _ <-; cbn; (split; [|]); try tauto; [intros (_ & H); lia|]. intros (_ & _ & H). vm_compute in H. discriminate. }
  split; [vm_compute; reflexivity|]. split; [|reflexivity]. intros (s4 & st & i & b & Hb & E & _). absent Hb E.
Qed.

(** False without the restriction: pool4 is empty, the node's own addresses serve
    as masks, and a packet from the IPv6 side of a static entry throws the entry
    away because its IPv4 address is not among them (db.c:1416-1512). *)
Theorem C17_static_refuted : exists p t c o x t' evs s6 s4, reachable p t /\ has t s6 s4 true /\ wf_op o /\ ~ asked_to_remove o s6 s4 /\
  step c p t o = Ok (x, t', evs) /\ ~ used4 t' s4 /\ has t' s6 (four, 5000) false.
Proof.
  exists UDP. eexists _, conf, (OAdd6 masks_dyn (a6 9, 53) (remote6 1) (remote 1) 10 []), _, _, _, (a6 9, 53), (four, 80).
  split; [exists [(conf, OStatic (a6 9, 53) (four, 80) [])]; eexists; split; [wf_history|vm_compute; reflexivity]|].
  split; [exists 0; eexists; split; [reflexivity|repeat split]|]. split; [eexists; exact masks_dyn_offers|]. split; [intros []|]. split; [vm_compute; reflexivity|]. split.
  - intros (s6 & st & i & b & Hb & _ & E & _). absent Hb E.
  - exists 2. eexists. split; [reflexivity|repeat split].
Qed.
Print Assumptions C17_static_refuted.

(** ** C18 *)
Lemma taken_others : forall D t t1 s6 m, inv [] t -> inv D t1 -> bibs t1 = bibs t -> ~ (exists i, In i (tree4 t1) /\ key6 t1 i = s6) ->
  (forall i, In i D -> key6 t i = s6) -> taken t1 m <-> others t s6 m.
Proof.
  intros D t t1 s6 m I I1 Eb N HD. split.
  - intros (i & Hi & E). pose proof (proj1 (in4 _ _ I1 i) Hi) as [Hb _]. rewrite Eb in Hb. destruct (bibs t i) as [b|] eqn:Hbi; [|congruence].
    exists (b_src6 b), (b_static b). split.
    + intros C. apply N. exists i. split; [exact Hi|]. unfold key6. rewrite Eb, Hbi. exact C.
    + exists i, b. unfold key4 in E. rewrite Eb, Hbi in E. auto.
  - intros (s6' & st & Ns & i & b & Hb & E6 & E4 & _). exists i. split.
    + apply (in4 _ _ I1). rewrite Eb. split; [congruence|]. intros C. apply HD in C. rewrite (key6_of _ _ _ Hb) in C. congruence.
    + unfold key4. rewrite Eb, Hb. exact E4.
Qed.
Lemma key6_same : forall t t1, bibs t1 = bibs t -> forall i, key6 t1 i = key6 t i.
Proof. intros t t1 E i. unfold key6. rewrite E. reflexivity. Qed.

(** What a successful search means, in those terms. *)
Lemma found_new : forall p t d w now f out, inv [] t -> found p t (Some d) w now f OK -> offers d out -> f_sess f = None -> f_bib f = None ->
  prep t (f_t f) w (Some d) (f_bdl f) (f_ev f) /\ picked t (w_src6 w) out (w_src4 (f_new f)) /\ f_new f = completed p (new_src4 w (w_src4 (f_new f))) (w_src4 (f_new f)) /\
  (forall k st, has t (w_src6 w) k st -> withdrawn d k) /\ ~ (exists i, In i (tree4 (f_t f)) /\ key6 t i = w_src6 w).
Proof.
  intros p t d w now f out I F O Hs Hn. inversion F as [bid b E1 E2 E3 E4|bid sid' Hp E1 E2 E3|Pr E1 E2 E3 B6 B4 Ch En|x Pr E1 St E2|]; [congruence|congruence| |congruence].
  pose proof (p_inv _ _ _ _ _ _ Pr) as I1. pose proof (p_bibs _ _ _ _ _ _ Pr) as Eb. pose proof (belongs_free6 _ _ _ _ I1 B6) as N6.
  assert (HD : forall i, In i (f_bdl f) -> key6 t i = w_src6 w).
  { intros i Hi. destruct (p_bdl _ _ _ _ _ _ Pr) as [X|(bid & b & X & Hb & H6 & _)]; rewrite X in Hi; [destruct Hi|]. destruct Hi as [<-|[]]. rewrite (key6_of _ _ _ Hb). exact H6. }
  split; [exact Pr|]. split; [|split; [exact En|split]].
  - destruct (Ch out O) as (a & b & E & Ha & Hk). exists a, b. split; [exact E|]. split.
    + intros m Hm. apply (taken_others _ _ _ _ _ I I1 Eb N6 HD). apply Ha. exact Hm.
    + intros C. apply Hk. apply (taken_others _ _ _ _ _ I I1 Eb N6 HD). exact C.
  - intros k st (i & b & Hb & E6 & E4 & _). assert (Hi : In i (f_bdl f)).
    { destruct (in_dec Z.eq_dec i (f_bdl f)) as [Y|Y]; [exact Y|]. exfalso. apply N6. exists i. split; [apply (in4 _ _ I1); rewrite Eb; split; [congruence|exact Y]|]. unfold key6. rewrite Eb, Hb. exact E6. }
    destruct (p_bdl _ _ _ _ _ _ Pr) as [X|(bid & b0 & X & Hb0 & H6 & H2)]; rewrite X in Hi; [destruct Hi|]. destruct Hi as [<-|[]]. assert (b0 = b) by congruence. subst b0.
    unfold issue216_needed in H2. apply andb_true_iff in H2. destruct H2 as [H2 H3]. apply negb_true_iff in H3. rewrite <- E4. split; assumption.
  - intros (i & Hi & E). apply N6. exists i. split; [exact Hi|]. rewrite (key6_same _ _ Eb). exact E.
Qed.
Lemma found_err : forall p t d w now f x out, inv [] t -> found p t (Some d) w now f (Err x) -> offers d out -> x = ENOENT /\ forall m, In m (map fst out) -> others t (w_src6 w) m.
Proof.
  intros p t d w now f x out I F O. inversion F as [| | | |y Pr Ex Ey N]. split; [congruence|]. intros m Hm.
  pose proof (p_inv _ _ _ _ _ _ Pr) as I1. pose proof (p_bibs _ _ _ _ _ _ Pr) as Eb.
  apply (taken_others _ _ _ _ _ I I1 Eb); [| |exact (Ex out O m Hm)].
  - intros (i & Hi & E). apply N. exists i. split; [exact Hi|]. rewrite <- (key6_same _ _ Eb). exact E.
  - intros i Hi. destruct (p_bdl _ _ _ _ _ _ Pr) as [X|(bid & b & X & Hb & H6 & _)]; rewrite X in Hi; [destruct Hi|]. destruct Hi as [<-|[]]. rewrite (key6_of _ _ _ Hb). exact H6.
Qed.
Lemma entry_fields : forall c p b s, let e := entry_of c p b s in e_src6 e = b_src6 b /\ e_src4 e = b_src4 b /\ e_dst6 e = s_dst6 s /\ e_dst4 e = s_dst4 s.
Proof. intros. repeat split. Qed.
Lemma not_withdrawn : forall d b, issue216_needed (Some d) b = false -> ~ withdrawn d (b_src4 b).
Proof. intros d b H [H1 H2]. unfold issue216_needed in H. rewrite H1, H2 in H. discriminate. Qed.
Lemma has_same : forall t t', (forall i b, bibs t i = Some b -> exists b', bibs t' i = Some b' /\ b_src6 b' = b_src6 b /\ b_src4 b' = b_src4 b /\ b_static b' = b_static b) ->
  forall a m st, has t a m st -> has t' a m st.
Proof. intros t t' H a m st (i & b & Hb & E6 & E4 & Es). destruct (H i b Hb) as (b' & Hb' & F6 & F4 & Fs). exists i, b'. repeat split; congruence. Qed.

Lemma served_linked : forall c p t d w now f out k t2 en t' devs, inv [] t -> found p t (Some d) w now f OK -> offers d out -> f_sess f = None ->
  linked6 c p f k now t2 en -> inv (f_bdl f) t2 -> commit_delete_list t2 (f_bdl f) = Ok (t', devs) -> served p t d out (w_src6 w) (w_dst6 w) (w_dst4 w) t' en.
Proof.
  intros c p t d w now f out k t2 en t' devs I F O Hs (sid & s & b' & Cp & ->) I2 Ed.
  destruct (delete_list_ok _ _ I2) as (t1 & e1 & E1 & I' & A' & Fb & Fs & T6 & T4 & L & Fq & Ff). assert (t1 = t') by congruence. subst t1. clear E1.
  pose proof (c_added _ _ _ _ _ _ _ _ Cp) as A. pose proof (c_s _ _ _ _ _ _ _ _ Cp) as Es. pose proof (c_6 _ _ _ _ _ _ _ _ Cp) as E6. pose proof (c_bib _ _ _ _ _ _ _ _ Cp) as Cb. pose proof (c_nd _ _ _ _ _ _ _ _ Cp) as Nd.
  assert (Hb' : bibs t' (s_bib s) = Some b').
  { rewrite Fb, (a_bibs _ _ _ _ _ A), Z.eqb_refl. destruct (mem_id (s_bib s) (f_bdl f)) eqn:Em; [apply mem_in in Em; destruct (Nd Em)|reflexivity]. }
  assert (Hs' : sess t' sid = Some s) by (apply Fs; rewrite (a_sess _ _ _ _ _ A), Z.eqb_refl; auto).
  assert (Ew6 : w_src6 (f_new f) = w_src6 w /\ w_dst6 (f_new f) = w_dst6 w).
  { inversion F as [bid b _ _ _ _ _ _ _ _ En _|bid sid' Hp E1 E2 E3|_ _ _ _ _ _ _ En|x Pr E1 St E2|]; [rewrite En; destruct p; auto|congruence|rewrite En; destruct p; auto|].
    rewrite E2 in Cb. destruct Cb as (_ & Cb). destruct St as (_ & _ & _ & St). congruence. }
  destruct Ew6 as [Ew6 Ew6'].
  assert (Hses : has_session t' (w_src6 w) (b_src4 b') (w_dst6 (f_new f)) (w_dst4 (f_new f))).
  { exists sid, s, b'. split; [exact Hs'|]. split; [exact Hb'|]. split; [congruence|]. split; [reflexivity|]. rewrite Es. auto. }
  exists (b_src4 b'), (b_static b'), (entry_of c p b' s). destruct (entry_fields c p b' s) as (G1 & G2 & G3 & G4).
  split; [reflexivity|]. split; [rewrite G1; congruence|]. split; [exact G2|]. rewrite G3, G4, Es. cbn [s_dst6 s_dst4].
  destruct (f_bib f) as [bid|] eqn:Ebib.
  - destruct Cb as [Cb Cn]. inversion F as [bid0 b E1 E2 E3 E4 Hb Hi H6 H2 En Hit|bid0 sid' Hp E1 E2 E3|Pr E1|x Pr E1 St E2|]; [|congruence|congruence|].
    2:{ rewrite Ebib in E2. injection E2 as <-. destruct St as (_ & _ & _ & St). congruence. }
    rewrite Ebib in E4. injection E4 as <-. rewrite E1, E2 in *. pose proof (a_b _ _ _ _ _ A) as Ab. rewrite Cb, Hb in Ab. destruct Ab as (_ & B6 & B4 & Bs).
    split; [rewrite En; destruct p; cbn; congruence|]. split; [left; split; [exists bid, b; repeat split; congruence|rewrite B4; apply not_withdrawn; exact H2]|]. split; [left; exact Ew6'|].
    split; [exists bid, b'; rewrite <- Cb; repeat split; [exact Hb'|congruence]|]. split; [exact Hses|].
    assert (Fr : forall i, bibs t' i = if i =? bid then Some b' else bibs t i) by (intros i; rewrite Fb, (a_bibs _ _ _ _ _ A), Cb; reflexivity).
    intros s6' m st' _. split; apply has_same; intros i bi Hbi.
    + rewrite Fr in Hbi. destruct (Z.eqb_spec i bid) as [->|N]; [|exists bi; auto]. injection Hbi as <-. exists b. auto.
    + rewrite Fr. destruct (Z.eqb_spec i bid) as [->|N]; [|exists bi; auto]. assert (bi = b) by congruence. subst bi. exists b'. auto.
  - destruct Cb as [Cn C4]. destruct (found_new _ _ _ _ _ _ _ I F O Hs Ebib) as (Pr & Pk & En & Wd & N6). pose proof (p_bibs _ _ _ _ _ _ Pr) as Eb.
    pose proof (a_b _ _ _ _ _ A) as Ab. rewrite Cn in Ab. destruct Ab as (Bs & _). rewrite C4, Bs.
    split; [rewrite En; destruct p; reflexivity|]. split; [right; auto|]. split; [left; exact Ew6'|]. split; [exists (s_bib s), b'; repeat split; congruence|]. split; [rewrite <- C4; exact Hses|].
    intros s6' m st' Ns. split; intros (i & bi & Hbi & F6 & F4 & Fst).
    + rewrite Fb in Hbi. destruct (mem_id i (f_bdl f)); [discriminate|]. rewrite (a_bibs _ _ _ _ _ A) in Hbi. destruct (i =? s_bib s); [injection Hbi as <-; congruence|]. rewrite Eb in Hbi. exists i, bi. auto.
    + exists i, bi. split; [|auto]. rewrite Fb, (a_bibs _ _ _ _ _ A), Eb. destruct (mem_id i (f_bdl f)) eqn:Em.
      * apply mem_in in Em. exfalso. destruct (p_bdl _ _ _ _ _ _ Pr) as [X|(bid & b0 & X & Hb0 & H6 & _)]; rewrite X in Em; [destruct Em|]. destruct Em as [<-|[]]. congruence.
      * destruct (Z.eqb_spec i (s_bib s)) as [->|N]; [rewrite Eb in Cn; congruence|exact Hbi].
Qed.

(** UDP and ICMP: a packet either gets through that way, or every address of the
    enumeration belongs to another node, or memory ran out. *)
Theorem C18_udp_icmp : forall c p t d masks s6 d6 d4 now al, reachable p t -> p <> TCP -> offers d masks ->
  exists e en t' evs, bib_add6 c p t d s6 d6 d4 now al = Ok (e, en, t', evs) /\
  match e with
  | OK => served p t d masks s6 d6 d4 t' en
  | Err ENOENT => en = NoEntry /\ forall m, In m (map fst masks) -> others t s6 m
  | Err ENOMEM => en = NoEntry /\ t' = t /\ In false al
  | Err _ => False
  end.
Proof.
  intros c p t d out s6 d6 d4 now al R Np O. destruct (reach_inv p t R) as [I _].
  destruct (bib_add6_ok c p t d s6 d6 d4 now al I (ex_intro _ out O) Np) as [(E & Ha)|(e & en & t' & evs & f & t2 & E & F & (devs & Ed & _) & I2 & _ & _ & Hm)].
  - eexists _, _, _, _. split; [exact E|]. cbn. auto.
  - exists e, en, t', evs. split; [exact E|]. destruct e as [|x]; [|destruct Hm as (-> & _); destruct (found_err _ _ _ _ _ _ _ _ I F O) as [-> H]; auto].
    destruct (f_sess f) as [sid|] eqn:Ef.
    + destruct Hm as (s & b & L & Eft & Eb & Hb & K & _ & ->). rewrite Eb in *. cbn [commit_delete_list] in Ed. injection Ed as <- _.
      inversion F as [bid b0 E1 E2 E3 E4 Hb0 Hi H6 H2 En Hit|bid0 sid' Hp E1|Pr E1 E2|x Pr E1 St E2 E3|]; [|congruence|congruence|congruence].
      rewrite Ef in Hit. destruct Hit as [Hit Kk]. apply nth_error_In in Hit. apply (ibs _ _ I _ _ Hb0) in Hit. destruct Hit as (s0 & Hs0 & Esb). assert (s0 = s) by (destruct L; congruence). subst s0.
      rewrite Esb in Hb. assert (b0 = b) by congruence. subst b0. unfold keys in Kk. rewrite (proj1 L) in Kk.
      assert (Hh : forall u, bibs u = bibs t -> has u s6 (b_src4 b) (b_static b)) by (intros u Eu; exists bid, b; rewrite Eu; auto).
      exists (b_src4 b), (b_static b), (entry_of c p b (set_timer s now T_EST)). split; [reflexivity|]. split; [exact H6|]. split; [reflexivity|].
      assert (E4' : s_dst4 s = far_end p d4 (b_src4 b)) by (rewrite Kk, En; destruct p; reflexivity).
      split; [exact E4'|]. split; [left; split; [apply Hh; reflexivity|apply not_withdrawn; exact H2]|].
      split; [right; exists sid, s, b; rewrite Esb; split; [apply L|]; auto 10|]. split; [apply Hh; exact (k_bibs _ _ _ _ K)|].
      split; [exists sid, (set_timer s now T_EST), b; rewrite (k_sess _ _ _ _ K), Z.eqb_refl, (k_bibs _ _ _ _ K); cbn [set_timer s_bib s_dst6 s_dst4]; rewrite Esb; auto 10|].
      intros s6' m st' _. unfold has. rewrite (k_bibs _ _ _ _ K). reflexivity.
    + destruct Hm as (_ & Hl). exact (served_linked c p t d _ now f out T_EST t2 en t' devs I F O Ef Hl I2 Ed).
Qed.
Print Assumptions C18_udp_icmp.
Definition masks1 : domain := Dom 0 1 0 0 [Rg four 32 5000 5000] 0 4999 false.
Example masks1_offers : offers masks1 [(four, 5000, false)].
Proof. split; [vm_compute; reflexivity|]. cbn. split; [split; discriminate|exact Logic.I]. Qed.
Example C18_exhausted_case : exists t t' evs, reachable UDP t /\ bib_add6 conf UDP t masks1 (a6 7, 1) (remote6 1) (remote 1) 50 [] = Ok (Err ENOENT, NoEntry, t', evs).
Proof.
  eexists _, _, _. split; [exists udp_history; eexists; split; [wf_history|vm_compute; reflexivity]|]. vm_compute. reflexivity.
Qed.
Example C18_picked_case : exists t t' en evs, reachable UDP t /\ bib_add6 conf UDP t masks3 (a6 7, 1) (remote6 1) (remote 1) 50 [] = Ok (OK, en, t', evs) /\ has t' (a6 7, 1) (four, 5002) false.
Proof.
  eexists _, _, _, _. split; [exists (firstn 2 udp_history); eexists; split; [wf_history|vm_compute; reflexivity]|]. split; [vm_compute; reflexivity|]. exists 4. eexists. split; [reflexivity|repeat split].
Qed.

(** TCP: the first packet of a connection, when no packet from the other side
    waits for it, in a table whose states are TCP states ([C57] is about others).
    Missing: the packet another one is waiting for, which takes the address that
    one was sent to; [C18_tcp_chosen] is about all of them. *)
Theorem C18_tcp_partial : forall c t d masks s6 d6 d4 g now al, reachable TCP t -> states_ok t -> offers d masks -> sg_syn g = true ->
  (forall n, In n (queue t) -> q_dst6 n <> d6) -> ~ (exists k x, has_session t s6 k x d4) ->
  exists v en t' evs, bib_add_tcp6 c t d s6 d6 d4 g now al = Ok (v, en, t', evs) /\
  ((v = VContinue /\ served TCP t d masks s6 d6 d4 t' en) \/
   (v = VDrop /\ en = NoEntry /\ ((forall m, In m (map fst masks) -> others t s6 m) \/ (t' = t /\ In false al)))).
Proof.
  intros c t d out s6 d6 d4 g now al R V O Hg Hq Hn. destruct (reach_inv TCP t R) as [I _].
  destruct (bib_add_tcp6_ok c t d s6 d6 d4 g now al I (ex_intro _ out O)) as [(E & Ha)|[(E & B)|(e & v & en & t' & f & t2 & evs2 & devs & E & F & Ed & I2 & _ & _ & Hm)]].
  - eexists _, _, _, _. split; [exact E|]. right. auto.
  - exfalso. destruct B as [(_ & n & Hf & _)|(j & s & Hj & Hv)]; [|exact (Hv (V _ _ Hj))]. destruct (q_find_ok _ _ _ Hf) as [H1 H2]. exact (Hq n H1 H2).
  - eexists _, _, _, _. split; [exact E|]. destruct e as [|x].
    2:{ destruct Hm as (-> & -> & _). destruct (found_err _ _ _ _ _ _ _ _ I F O) as [_ H]. right. auto. }
    destruct (f_sess f) as [sid|] eqn:Ef.
    + exfalso. inversion F as [bid b E1 E2 E3 E4 Hb Hi H6 H2 En Hit|bid sid' Hp E1 E2 E3 E4 U N|Pr E1 E2|x Pr E1 St E2 E3|]; [| |congruence|congruence].
      * rewrite Ef in Hit. destruct Hit as [Hit Kk]. apply nth_error_In in Hit. apply (ibs _ _ I _ _ Hb) in Hit. destruct Hit as (s0 & Hs0 & Esb). unfold keys in Kk. rewrite Hs0, En in Kk. cbn in Kk.
        apply Hn. exists (b_src4 b), (s_dst6 s0), sid, s0, b. rewrite Esb. auto 10.
      * destruct (u_ex _ _ _ _ _ _ _ _ U) as (t0 & n & b' & _ & _ & _ & Hin & Hd & _). exact (Hq n Hin Hd).
    + rewrite Hg in Hm. destruct Hm as (_ & -> & Hl). left. split; [reflexivity|]. exact (served_linked c TCP t d _ now f out T_TRANS t2 en t' devs I F O Ef Hl I2 Ed).
Qed.
Print Assumptions C18_tcp_partial.
Definition syn6 : segment := Seg V6 true false false.
Definition syn4 : segment := Seg V4 true false false.
Example C18_tcp_case : exists t t' en evs, reachable TCP t /\ states_ok t /\ length (queue t) = 1%nat /\ (forall n, In n (queue t) -> q_dst6 n <> remote6 1) /\ ~ (exists k x, has_session t (a6 2, 1) k x (remote 1)) /\
  bib_add_tcp6 conf t masks3 (a6 2, 1) (remote6 1) (remote 1) syn6 30 [] = Ok (VContinue, en, t', evs) /\ has t' (a6 2, 1) (four, 5001) false.
Proof.
  set (h := [(conf, OTcp6 masks3 (a6 1, 1) (remote6 1) (remote 1) syn6 10 []); (conf, OTcp4 (four, 80) (remote 2) (remote6 2) syn4 99 20 [])]).
  eexists _, _, _, _. split; [exists h; eexists; split; [wf_history|vm_compute; reflexivity]|]. split.
  { refine (run_P TCP states_ok h init_table _ _ _ _ init_inv _ _); [wf_history| |intros j s; discriminate|vm_compute; reflexivity]. intros c o [E|[E|[]]]; injection E as _ <-; apply states_closed; exact Logic.I. }
  split; [reflexivity|]. split; [intros n [<-|[]]; vm_compute; discriminate|]. split.
  { intros (k & x & j & s & b & Hj & Hb & E & _). cbv in Hj. repeat match type of Hj with context [if ?c then _ else _] => destruct c end; [|discriminate]. injection Hj as <-. vm_compute in Hb. injection Hb as <-. vm_compute in E. discriminate. }
  split; [vm_compute; reflexivity|]. exists 3. eexists. split; [reflexivity|repeat split].
Qed.


(** Whatever the packet, an address that becomes the node's is one pool4 offers,
    in the enumeration or (when an unanswered packet came to it) because it belongs
    to one of the ranges; and no other node has it. *)
Theorem C18_tcp_chosen : forall c t d masks s6 d6 d4 g now al v en t' evs k st, reachable TCP t -> offers d masks ->
  bib_add_tcp6 c t d s6 d6 d4 g now al = Ok (v, en, t', evs) -> has t' s6 k st -> ~ has t s6 k st ->
  st = false /\ ~ others t s6 k /\ (In k (map fst masks) \/ mask_domain_matches d (fst k) (snd k) = true).
Proof.
  intros c t d out s6 d6 d4 g now al v en t' evs k st R O E Hk Hn. destruct (reach_inv TCP t R) as [I _].
  assert (R' : reachable TCP t').
  { apply (reachable_app TCP t [(c, OTcp6 d s6 d6 d4 g now al)] t' (evs ++ []) R); [constructor; [exists out; exact O|constructor]|]. cbn [run step]. rewrite E. reflexivity. }
  destruct (bib_add_tcp6_ok c t d s6 d6 d4 g now al I (ex_intro _ out O)) as [(E1 & _)|[(E1 & _)|(e & v1 & en1 & t1 & f & t2 & evs2 & devs & E1 & F & Ed & I2 & _ & _ & Hm)]]; rewrite E in E1.
  - injection E1 as _ _ -> _. contradiction.
  - discriminate.
  - injection E1 as <- <- <- _.
    destruct (delete_list_ok _ _ I2) as (t3 & e3 & E3 & _ & _ & Fb & _). assert (t3 = t') by congruence. subst t3. clear E3.
    assert (Old : forall t0, (forall i b, bibs t2 i = Some b -> bibs t0 i = Some b) -> has t0 s6 k st).
    { intros t0 H. destruct Hk as (i & b & Hb & X). rewrite Fb in Hb. destruct (mem_id i (f_bdl f)); [discriminate|]. exists i, b. auto. }
    assert (Pr : forall ws bdl ev, prep t t2 ws (Some d) bdl ev -> False).
    { intros ws bdl ev P. apply Hn, Old. rewrite (p_bibs _ _ _ _ _ _ P). auto. }
    assert (Ft : t2 = f_t f -> (forall sid, f_sess f <> Some sid) -> False).
    { intros -> Ns. inversion F as [bid b E1 E2 E3 E4 Hb Hi H6 H2 En Hit|bid sid' Hp E1 E2 E3 E4 U N|P E1 E2|x P E1 S E2 E3|x P]; try (exact (Pr _ _ _ P)); [|exact (Ns _ E3)]. apply Hn, Old. rewrite E1. auto. }
    destruct e as [|x].
    2:{ exfalso. destruct Hm as (_ & _ & ->). inversion F as [| | | |y P]. exact (Pr _ _ _ P). }
    destruct (f_sess f) as [sid|] eqn:Ef.
    + destruct Hm as (_ & s & b & s' & _ & _ & _ & _ & _ & K & _). pose proof (k_bibs _ _ _ _ K) as Kb.
      inversion F as [bid b0 E1 E2 E3 E4 Hb Hi H6 H2 En Hit|bid sid' Hp E1 E2 E3 E4 U N|P E1 E2|x P E1 S E2 E3|]; [|  |congruence|congruence].
      * exfalso. apply Hn, Old. rewrite Kb, E1. auto.
      * destruct (u_ex _ _ _ _ _ _ _ _ U) as (t0 & n & b' & P & A & Nb & Hin & Hd & B6 & B4 & Nt & _ & M & _).
        destruct Hk as (i & bi & Hbi & X6 & X4 & Xs). rewrite Fb in Hbi. destruct (mem_id i (f_bdl f)); [discriminate|]. rewrite Kb, (a_bibs _ _ _ _ _ A) in Hbi. cbn [s_bib] in Hbi.
        destruct (Z.eqb_spec i bid) as [->|Ni].
        -- injection Hbi as <-. pose proof (a_b _ _ _ _ _ A) as Ab. cbn [s_bib] in Ab. rewrite (p_bibs _ _ _ _ _ _ P), Nb in Ab. destruct Ab as [Ab _]. split; [congruence|].
           rewrite <- X4, B4. split; [|right; apply M; reflexivity]. intros (s6' & st' & _ & Ho). apply Nt. apply (taken_used _ _ I). exists s6', st'. exact Ho.
        -- exfalso. apply Hn. rewrite (p_bibs _ _ _ _ _ _ P) in Hbi. exists i, bi. auto.
    + destruct (sg_syn g) eqn:Hg.
      * destruct Hm as (_ & _ & Hl). destruct (served_linked c TCP t d _ now f out T_TRANS t2 en t' devs I F O Ef Hl I2 Ed) as (k' & st' & e' & _ & _ & _ & _ & Hch & _ & Hh & _). cbn [w_src6] in Hch, Hh.
        destruct (has_unique TCP t' R' _ _ _ _ _ _ Hk Hh (or_introl eq_refl)) as (_ & <- & <-).
        destruct Hch as [(Hh' & _)|(Est & (a & b & Em & _ & No) & _)]; [contradiction|]. split; [exact Est|]. split; [exact No|]. left. rewrite Em. apply in_or_app. right. left. reflexivity.
      * exfalso. apply Ft; [apply Hm|discriminate].
Qed.
Print Assumptions C18_tcp_chosen.
(** An answer to a stored packet: the address is the third of the range. *)
Example C18_tcp_chosen_case : exists t t' en evs, reachable TCP t /\ ~ used6 t (a6 2, 1) /\ ~ used4 t (four, 5000) /\
  bib_add_tcp6 conf t masks3 (a6 2, 1) (remote6 1) (remote 1) syn6 30 [] = Ok (VContinue, en, t', evs) /\ has t' (a6 2, 1) (four, 5002) false.
Proof.
  set (h := [(conf, OTcp4 (four, 5002) (remote 1) (remote6 1) syn4 99 20 [])]).
  eexists _, _, _, _. split; [exists h; eexists; split; [wf_history|vm_compute; reflexivity]|].
  split; [intros (s4 & st & i & b & Hb & _); cbv in Hb; discriminate|]. split; [intros (s4 & st & i & b & Hb & _); cbv in Hb; discriminate|].
  split; [vm_compute; reflexivity|]. exists 0. eexists. split; [reflexivity|repeat split].
Qed.
