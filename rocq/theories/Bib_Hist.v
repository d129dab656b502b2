(** Any step keeps the invariant, and whatever else its parts keep. *)
Require Import Verif.Base Verif.Addr_Model Verif.Rtrie_Model Verif.Pool4_Model Verif.Pool4_Spec Verif.Fsm_Model Verif.Bib_Model
  Verif.Rbtree_Model Verif.Rbtree_Properties Verif.Bib_Inv Verif.Bib_Steps Verif.Bib_Fate Verif.Bib_Find Verif.Bib_Add Verif.Bib_Ops.
Local Ltac Zify.zify_post_hook ::= idtac.

Definition wf_op (o : op) : Prop :=
  match o with OAdd6 d _ _ _ _ _ | OTcp6 d _ _ _ _ _ _ => exists out, offers d out | _ => True end.
Definition arrived (o : op) (x : out) : list Z :=
  match o, x with OTcp4 _ _ _ _ skb _ _, RVerdict VStolen _ => [skb] | _, _ => [] end.
Definition leak (o : op) (evs : list ev) : Z := match o with OStatic _ _ _ => Z.of_nat (length evs) | _ => 0 end.
Definition op_now (o : op) : Z :=
  match o with
  | OAdd6 _ _ _ _ now _ | OAdd4 _ _ _ now _ | OTcp6 _ _ _ _ _ now _ | OTcp4 _ _ _ _ _ now _ | OSync _ now _ | OClean now _ => now
  | _ => 0
  end.

Lemma proto_eq_dec : forall a b : proto, {a = b} + {a <> b}.
Proof. decide equality. Defined.

Definition timed (o : op) : bool := match o with OStatic _ _ _ | ORm _ _ | ORmRange _ _ _ | OFlush => false | _ => true end.

(** ** What a step is made of *)
(** How an existing session may be treated. *)
Definition reacts (c : cfg) (p : proto) (o : op) (e : sentry) (r : sentry * fate) : Prop :=
  match o with
  | OAdd6 _ _ _ _ _ _ | OAdd4 _ _ _ _ _ => r = (e, FATE_TIMER_EST)
  | OTcp6 _ _ _ _ g _ _ | OTcp4 _ _ _ g _ _ _ => p = TCP /\ r = tcp_state_machine (c_handle_rst c) g e
  | OSync e0 _ _ => r = collision_cb e0 e
  | OClean now _ => exists k, k <> T_BAD /\ r = expire_cb p k now e
  | _ => False
  end.
(** What a new session may look like. *)
Definition creates (p : proto) (o : op) (s : tsess) : Prop :=
  match o with
  | OAdd6 _ _ _ _ now _ | OAdd4 _ _ _ now _ => p <> TCP /\ s_state s = ESTABLISHED /\ s_exp s = T_EST /\ s_time s = now /\ s_stored s = None
  | OTcp6 _ _ _ _ _ now _ => p = TCP /\ (s_state s = V6_INIT /\ s_exp s = T_TRANS \/ s_state s = V4_INIT /\ s_exp s = T_SYN4) /\ s_time s = now /\ s_stored s = None
  | OTcp4 _ _ _ _ _ now _ => p = TCP /\ s_state s = V4_INIT /\ s_exp s <> T_BAD /\ s_time s = now
  | OSync e0 _ _ => s_state s = e_state e0 /\ s_exp s = e_timer e0 /\ e_timer e0 <> T_BAD /\ s_time s = e_time e0 /\ s_stored s = None
  | _ => False
  end.
Definition placed (o : op) (t t' : tb) (sid : Z) (s : tsess) : Prop :=
  match o with
  | OSync _ _ _ => inserted t t' sid (s_time s) (s_exp s)
  | _ => forall k, list_of t' k = if same_timer (s_exp s) k then list_of t k ++ [sid] else list_of t k
  end.

(** The v6 packets, with the masks they come with *)
Definition adds6 (o : op) : option (domain * ta) :=
  match o with OAdd6 d s6 _ _ _ _ | OTcp6 d s6 _ _ _ _ _ => Some (d, s6) | _ => None end.
(** What an operation is meant to remove *)
Definition targets (o : op) (s6 s4 : ta) : Prop :=
  match o with
  | ORm a b => s6 = a /\ s4 = b
  | ORmRange pf lo hi => prefix4_contains pf (fst s4) = true /\ lo <= snd s4 <= hi
  | OFlush => True
  | _ => False
  end.

Record closed (c : cfg) (p : proto) (o : op) (P : tb -> Prop) : Prop := Closed {
  cl_fate : forall D t t' i s b r, inv D t -> inv D t' -> live D t i s -> bibs t (s_bib s) = Some b ->
    reacts c p o (entry_of c p b s) r -> fate_done t t' i s (fst r) (snd r) (op_now o) -> P t -> P t';
  cl_add : forall D t t' sid s b', inv D t -> inv D t' -> added t t' sid s b' -> ~ In (s_bib s) D -> creates p o s -> placed o t t' sid s -> P t -> P t';
  cl_prep : forall t t1 w masks bdl evs, inv [] t -> prep t t1 w masks bdl evs ->
    (bdl = [] \/ exists d bid b, adds6 o = Some (d, b_src6 b) /\ bdl = [bid] /\ bibs t bid = Some b /\ issue216_needed (Some d) b = true) -> P t -> P t1;
  cl_del : forall D t t', inv D t -> (forall i, bibs t' i = if mem_id i D then None else bibs t i) ->
    (forall j s, sess t' j = Some s <-> sess t j = Some s /\ ~ In (s_bib s) D) -> tree4 t' = tree4 t -> (forall k, list_of t' k = list_of t k) ->
    queue t' = queue t -> P t -> P t';
  cl_rem : forall t t' l, inv [] t -> removed t t' l -> (forall i, In i l -> targets o (key6 t i) (key4 t i)) -> P t -> P t';
  cl_queue : forall t q n, P t -> (exists pre, queue t = pre ++ q) \/ (p = TCP /\ timed o = true /\ c_drop_external_tcp c = false /\ exists x, q = queue t ++ [x] /\ q_time x = op_now o) ->
    P (set_pkts (set_queue t q) n);
  cl_static : forall t t' s6 s4 evs, inv [] t -> static_case p t s6 s4 t' evs OK -> P t -> P t' }.

Lemma after_entry : forall c p b s now, after s (entry_of c p b s) now T_EST (if e_stored (entry_of c p b s) then s_stored s else None) = set_timer s now T_EST.
Proof. intros. unfold after, entry_of, set_timer. cbn [e_state e_stored]. destruct (s_stored s); reflexivity. Qed.

Lemma found_P : forall c p o P t masks w now f e, closed c p o P -> inv [] t -> found p t masks w now f e -> op_now o = now ->
  (masks = None \/ exists d, masks = Some d /\ adds6 o = Some (d, w_src6 w) /\ (p <> TCP \/ exists d a b x g al, o = OTcp6 d a b x g now al)) -> P t -> P (f_t f).
Proof.
  intros c p o P t masks w now f e C I F En Ho Ht.
  assert (Hb : forall t1 bdl evs, prep t t1 w masks bdl evs -> P t1).
  { intros t1 bdl evs Pr. apply (cl_prep _ _ _ _ C _ _ _ _ _ _ I Pr); [|exact Ht]. destruct (p_bdl _ _ _ _ _ _ Pr) as [X|(bid & b & X1 & X2 & X3 & X4)]; [left; exact X|right].
    destruct Ho as [->|(d & -> & Ha & _)]; [discriminate|]. exists d, bid, b. rewrite X3. auto. }
  inversion F as [bid b E1 E2|bid sid' Hp E1 E2 E3 E4 U E5|Pr E1 E2|x Pr E1 St E2 E3|x Pr].
  - rewrite E1. exact Ht.
  - destruct U as [U1 U2 (t0 & n & b' & Pr & A & Hbb & _ & _ & _ & _ & _ & Hm & _ & L)]. pose proof (Hb _ _ _ Pr) as H0.
    destruct Ho as [Ho|(d0 & _ & _ & [Ho|(d & a & b & x & g & al & ->)])]; [congruence|congruence|]. eapply (cl_add _ _ _ _ C []); [apply Pr|exact U1|exact A|intros []| | |exact H0].
    + cbn [creates]. split; [exact Hp|]. split; [right; split; reflexivity|]. split; reflexivity.
    + cbn [placed s_exp]. intros k. rewrite L. destruct (p_lists _ _ _ _ _ _ Pr) as (dead & Hd & Hl). assert (dead = []) by (destruct dead as [|j dead]; [reflexivity|]; destruct (proj1 (Hd j) (or_introl eq_refl)) as (s & _ & [])).
      subst dead. rewrite Hl, drop_nil. reflexivity.
  - exact (Hb _ _ _ Pr).
  - exact (Hb _ _ _ Pr).
  - exact (Hb _ _ _ Pr).
Qed.

Lemma del_P : forall c p o P D t t' evs, closed c p o P -> inv D t -> commit_delete_list t D = Ok (t', evs) -> P t -> P t'.
Proof.
  intros c p o P D t t' evs C I E Ht. destruct (delete_list_ok _ _ I) as (t1 & e1 & E1 & I' & A' & Fb & Fs & T6 & T4 & L & Fq & Ff). assert (t1 = t') by congruence. subst t1.
  exact (cl_del _ _ _ _ C D t t' I Fb Fs T4 L Fq Ht).
Qed.

Lemma upto_all : forall f l i, In i (upto f l) -> f i = true.
Proof. intros f l i. induction l as [|y l IH]; cbn [upto]; [intros []|]. destruct (f y) eqn:E; [intros [<-|H]; auto|intros []]. Qed.

Lemma couple_P : forall c p o P f t2 sid s b' k time m, closed c p o P -> inv (f_bdl f) (f_t f) -> couple f t2 sid s b' k time m -> creates p o s -> placed o (f_t f) t2 sid s -> P (f_t f) -> P t2.
Proof.
  intros c p o P f t2 sid s b' k time m C I Cp Hc Hp Ht.
  exact (cl_add _ _ _ _ C _ _ _ _ _ _ I (c_inv _ _ _ _ _ _ _ _ Cp) (c_added _ _ _ _ _ _ _ _ Cp) (c_nd _ _ _ _ _ _ _ _ Cp) Hc Hp Ht).
Qed.

Lemma linked6_P : forall c p o P f k now t2 en, closed c p o P -> inv (f_bdl f) (f_t f) -> linked6 c p f k now t2 en -> op_now o = now ->
  match o with
  | OAdd6 _ _ _ _ _ _ => p <> TCP /\ k = T_EST /\ w_state (f_new f) = ESTABLISHED
  | OTcp6 _ _ _ _ _ _ _ => p = TCP /\ k = T_TRANS /\ w_state (f_new f) = V6_INIT
  | _ => False end -> P (f_t f) -> P t2.
Proof.
  intros c p o P f k now t2 en C I (sid & s & b' & Cp & _) En Ho Ht. pose proof (c_s _ _ _ _ _ _ _ _ Cp) as Es.
  assert (Hl : forall k', list_of t2 k' = if same_timer k k' then list_of (f_t f) k' ++ [sid] else list_of (f_t f) k').
  { intros k'. rewrite (c_lists _ _ _ _ _ _ _ _ Cp). destruct (same_timer k k') eqn:E; [|reflexivity].
    assert (k = k') by (destruct k, k'; try discriminate; reflexivity). subst k'. apply insert_end. }
  apply (couple_P c p o P f t2 sid s b' k now _ C I Cp); [| |exact Ht].
  - destruct o; cbn [creates op_now] in *; try contradiction; destruct Ho as (H1 & H2 & H3); rewrite Es; cbn [s_state s_exp s_time s_stored]; subst; auto 10.
  - destruct o; cbn [placed] in *; try contradiction; rewrite Es; cbn [s_exp]; exact Hl.
Qed.

Lemma fed_P : forall c o P t t2 g now sid v en, closed c TCP o P -> inv [] t -> inv [] t2 -> fed c t t2 g now sid v en -> op_now o = now ->
  (forall e, reacts c TCP o e (tcp_state_machine (c_handle_rst c) g e)) -> P t -> P t2.
Proof.
  intros c o P t t2 g now sid v en C I I2 (s & b & s' & Hs & Hb & Ht4 & F & _) En Hr Ht.
  eapply (cl_fate _ _ _ _ C [] t t2 sid s b); [exact I|exact I2|split; [exact Hs|intros []]|exact Hb|apply Hr|rewrite En; exact F|exact Ht].
Qed.

Lemma found_state : forall p t masks w now f, found p t masks w now f OK -> f_sess f = None -> (exists x, f_bib f = Some x /\ stale p t (f_t f) masks x) \/ w_state (f_new f) = w_state w.
Proof.
  intros p t masks w now f F Hn. inversion F as [bid b E1 E2 E3 E4 E5 E6 E7 E8 E9|bid sid' Hp E1 E2 E3 E4 U E5|Pr E1 E2 E3 E4 E5 E6 E7|x Pr E1 St E2 E3|x Pr].
  - right. rewrite E9. destruct p; reflexivity.
  - congruence.
  - right. rewrite E7. destruct masks; [destruct p; reflexivity|reflexivity].
  - left. eauto.
Qed.

Theorem step_P : forall c p o P t x t' evs, wf_op o -> closed c p o P -> inv [] t -> P t -> step c p t o = Ok (x, t', evs) -> P t'.
Proof.
  intros c p o P t x t' evs W C I Ht E. destruct o as [d s6 d6 d4 now al|s4 d4 d6 now al|d s6 d6 d4 g now al|s4 d4 d6 g skb now al|e0 now al|now al|s6 s4 al|s6 s4|pf lo hi|]; cbn [step] in E.
  - destruct (proto_eq_dec p TCP) as [->|Np]; [injection E as _ <- _; exact Ht|].
    assert (E' : bind (bib_add6 c p t d s6 d6 d4 now al) (fun r => let '(x0, en, t1, evs0) := r in Ok (RRc x0 en, t1, evs0)) = Ok (x, t', evs)) by (destruct p; [congruence|exact E..]).
    destruct (bib_add6_ok c p t d s6 d6 d4 now al I W Np) as [(E1 & _)|(e & en & t1 & evs1 & f & t2 & E1 & F & (devs & Ed & _) & I2 & _ & _ & Hm)]; rewrite E1 in E'; cbn [bind] in E'.
    + injection E' as _ <- _. exact Ht.
    + assert (t1 = t') by congruence. subst t1. apply (del_P _ _ _ _ _ _ _ _ C I2 Ed). assert (Hf : P (f_t f)).
      { refine (found_P _ _ _ _ _ _ _ _ _ _ C I F eq_refl _ Ht). right. exists d. split; [reflexivity|]. split; [reflexivity|]. left. exact Np. }
      destruct e; [|destruct Hm as (_ & ->); exact Hf]. destruct (f_sess f) eqn:Ef.
      * destruct Hm as (s & b & L & Eft & Eb & Hb & K & A & _). rewrite Eb in *. apply (cl_fate _ _ _ _ C [] t t2 z s b (entry_of c p b s, FATE_TIMER_EST)); auto; [reflexivity|].
        cbn [fst snd fate_done op_now]. rewrite after_entry. split; assumption.
      * destruct Hm as (_ & Hl). destruct (found_state _ _ _ _ _ _ F Ef) as [(y & _ & Hp & _)|Hw]; [congruence|].
        apply (linked6_P c p _ P f T_EST now t2 en C); auto. apply (prep_old _ _ _ _ _ _ I F).
  - destruct (proto_eq_dec p TCP) as [->|Np]; [injection E as _ <- _; exact Ht|].
    assert (E' : bind (bib_add4 c p t s4 d4 d6 now al) (fun r => let '(x0, en, t1) := r in Ok (RRc x0 en, t1, [])) = Ok (x, t', evs)) by (destruct p; [congruence|exact E..]).
    destruct (bib_add4_ok c p t s4 d4 d6 now al I) as (e & en & t1 & E1 & I1 & _ & _ & Hm). rewrite E1 in E'. cbn [bind] in E'. assert (t1 = t') by congruence. subst t1. clear E E' E1.
    destruct Hm as [(_ & -> & _)|[(_ & -> & _)|(bid & b & Hb & Hi & _ & [(sid & s & L & Hsb & _ & _ & K & A & _)|(Hno & [(_ & _ & -> & _)|(_ & _ & Hl)])])]]; try exact Ht.
    + subst bid. apply (cl_fate _ _ _ _ C [] t t' sid s b (entry_of c p b s, FATE_TIMER_EST)); auto; [reflexivity|]. cbn [fst snd fate_done op_now]. rewrite after_entry. split; assumption.
    + destruct Hl as (sid & s & b' & A & Es & Hsb & _ & L). subst s. eapply (cl_add _ _ _ _ C []); [exact I|exact I1|exact A|intros []| | |exact Ht].
      * cbn [creates s_state s_exp s_time s_stored]. auto 10.
      * cbn [placed s_exp]. exact L.
  - destruct (proto_eq_dec p TCP) as [->|Np]; [|destruct p; [congruence|injection E as _ <- _; exact Ht..]].
    destruct (bib_add_tcp6_ok c t d s6 d6 d4 g now al I W) as [(E1 & _)|[(E1 & _)|(e & v & en & t1 & f & t2 & evs2 & devs & E1 & F & Ed & I2 & _ & _ & Hm)]]; rewrite E1 in E; cbn [bind] in E; [injection E as _ <- _; exact Ht|discriminate|].
    assert (t1 = t') by congruence. subst t1. apply (del_P _ _ _ _ _ _ _ _ C I2 Ed). assert (Hf : P (f_t f)).
    { refine (found_P _ _ _ _ _ _ _ _ _ _ C I F eq_refl _ Ht). right. exists d. split; [reflexivity|]. split; [reflexivity|]. right. eauto 10. }
    destruct e; [|destruct Hm as (_ & _ & ->); exact Hf]. pose proof (proj1 (prep_old _ _ _ _ _ _ I F)) as If. destruct (f_sess f) eqn:Ef.
    + destruct Hm as (Eb & Hm). rewrite Eb in *. eapply fed_P; try eassumption; [reflexivity|]. intros e. cbn [reacts]. auto.
    + destruct (sg_syn g); [|destruct Hm as (-> & _); exact Hf]. destruct Hm as (_ & _ & Hl). destruct (found_state _ _ _ _ _ _ F Ef) as [(y & Ey & _ & _ & _ & Hy)|Hw].
      * exfalso. destruct Hl as (sid & s & b' & Cp & _). pose proof (c_bib _ _ _ _ _ _ _ _ Cp) as Hc. rewrite Ey in Hc. destruct Hc as (_ & Hc). congruence.
      * apply (linked6_P c TCP _ P f T_TRANS now t2 en C); auto.
  - destruct (proto_eq_dec p TCP) as [->|Np]; [|destruct p; [congruence|injection E as _ <- _; exact Ht..]].
    destruct (bib_add_tcp4_ok c t s4 d4 d6 g skb now al I) as [(E1 & _)|(v & en & t1 & evs1 & E1 & I1 & _ & _ & _ & Hc)]; rewrite E1 in E; cbn [bind] in E; [discriminate|].
    assert (t1 = t') by congruence. subst t1. clear E E1. inversion Hc as [E|v' en' sid s b Hs _ Hb _ Hf|E|bid b E|E|E|E|E|bid b en' Hb Hi _ _ _ _ _ _ _ Hl|bid b en' Hb Hi _ _ _ _ _ Hl]; try (rewrite E; exact Ht).
    + refine (fed_P c _ P t t' g now sid _ _ C I I1 Hf eq_refl _ Ht). intros e. cbn [reacts]. auto.
    + rewrite E. apply (cl_queue _ _ _ _ C); [exact Ht|]. right. split; [reflexivity|]. split; [reflexivity|]. split; [assumption|]. eexists. split; reflexivity.
    + destruct Hl as (sid & s & b' & A & Es & Hsb & _ & L). subst s. eapply (cl_add _ _ _ _ C []); [exact I|exact I1|exact A|intros []| | |exact Ht].
      * cbn [creates s_state s_exp s_time s_stored]. repeat split; discriminate.
      * cbn [placed s_exp]. exact L.
    + destruct Hl as (sid & s & b' & A & Es & Hsb & _ & L). subst s. eapply (cl_add _ _ _ _ C []); [exact I|exact I1|exact A|intros []| | |exact Ht].
      * cbn [creates s_state s_exp s_time s_stored]. repeat split; discriminate.
      * cbn [placed s_exp]. exact L.
  - destruct (bib_add_session_ok c p t e0 now al I) as [E1|(y & t1 & evs1 & f & evs2 & E1 & _ & I1 & _ & _ & Eb & Hm)]; rewrite E1 in E; cbn [bind] in E; [injection E as _ <- _; exact Ht|].
    assert (t1 = t') by congruence. subst t1. clear E E1. destruct Hm as [(e & _ & F & -> & _)|(F & Hm)].
    + exact (found_P _ _ _ _ _ _ _ _ _ _ C I F eq_refl (or_introl eq_refl) Ht).
    + pose proof (found_P _ _ _ _ _ _ _ _ _ _ C I F eq_refl (or_introl eq_refl) Ht) as Hf. pose proof (proj1 (prep_old _ _ _ _ _ _ I F)) as If.
      destruct Hm as [(sid & s & b & Eft & _ & L & Hb & _ & Fd)|[(_ & _ & _ & ->)|(Ef & Nb & _ & sid & s & b' & m & Cp & Hin)]]; [|exact Hf|].
      * eapply (cl_fate _ _ _ _ C []); [exact I|exact I1|exact L|exact Hb|reflexivity|exact Fd|exact Ht].
      * pose proof (c_s _ _ _ _ _ _ _ _ Cp) as Es. destruct (found_state _ _ _ _ _ _ F Ef) as [(y' & Ey & _ & Hm & _)|Hw]; [congruence|].
        eapply couple_P; try eassumption.
        -- cbn [creates]. rewrite Es. cbn [s_state s_exp s_time s_stored]. rewrite Hw. cbn [w_state]. auto.
        -- cbn [placed]. rewrite Es. cbn [s_exp s_time]. exact Hin.
  - destruct (clean_table_ok c p now (fun t => P t)) with (t := t) (al := al) as (t1 & evs1 & E1 & I1 & _ & Hp & _); auto.
    + intros k u i s b u' Nk Iu Lu Hb Hu Iu' Fd. apply (cl_fate _ _ _ _ C [] u u' i s b (expire_cb p k now (entry_of c p b s))); auto. cbn [reacts]. eauto.
    + intros. apply (cl_queue _ _ _ _ C); [assumption|]. left. assumption.
    + rewrite E1 in E. cbn [bind fst snd] in E. injection E as _ <- _. exact Hp.
  - destruct (bib_add_static_ok p t s6 s4 al I) as (y & t1 & evs1 & E1 & I1 & _ & _ & _ & Hc). rewrite E1 in E. cbn [bind] in E. assert (t1 = t') by congruence. subst t1.
    destruct y; [exact (cl_static _ _ _ _ C _ _ _ _ _ I Hc Ht)|]. inversion Hc as [Ea|? ? ? ? ? ? Ea|Ea|]; try (rewrite Ea; exact Ht).
  - destruct (bib_rm_ok t s6 s4 I) as (y & t1 & evs1 & E1 & I1 & _ & Hc). rewrite E1 in E. cbn [bind] in E. assert (t1 = t') by congruence. subst t1.
    destruct Hc as [(_ & i & b & _ & Hb & H6 & H4 & R)|(_ & -> & _)]; [refine (cl_rem _ _ _ _ C _ _ _ I R _ Ht)|exact Ht].
    intros y0 [<-|[]]. cbn [targets]. unfold key6, key4. rewrite Hb. auto.
  - destruct (bib_rm_range_ok t pf lo hi I) as (t1 & evs1 & n & l & E1 & I1 & _ & R & El & _). rewrite E1 in E. cbn [bind fst snd] in E. injection E as _ <- _. refine (cl_rem _ _ _ _ C _ _ _ I R _ Ht).
    intros i Hi. rewrite El in Hi. apply filter_In in Hi. destruct Hi as [H1 H2]. cbn [targets]. split; [exact (upto_all _ _ _ H1)|]. unfold in_ports, port_range_contains in H2. lia.
  - destruct (flush_table_ok t I) as (t1 & evs1 & E1 & I1 & _ & R). rewrite E1 in E. cbn [bind fst snd] in E. injection E as _ <- _. refine (cl_rem _ _ _ _ C _ _ _ I R _ Ht). intros i _. exact Logic.I.
Qed.

(** ** One step, from a sound table *)
Definition danger (p : proto) (t : tb) (o : op) : Prop :=
  p = TCP /\ (match o with OTcp6 _ _ d6 _ _ _ al => exists n, In n (queue t) /\ q_dst6 n = d6 /\ (In false al \/ taken t (q_src4 n)) | _ => False end \/ bad_session t).
Record stepped (c : cfg) (o : op) (t : tb) (x : out) (t' : tb) (evs : list ev) : Prop := Stepped {
  st_inv : inv [] t';
  st_dyn : dyn t -> dyn t';
  st_flow : flow (arrived o x) t t' evs;
  st_gauge : pkts t - wl one t - wq one t + leak o evs = pkts t' - wl one t' - wq one t';
  st_leak : 0 <= leak o evs <= sumz (we one) evs;
  st_room : arrived o x <> [] -> too_many c t = false }.

Lemma freed_nonneg : forall evs, 0 <= sumz (we one) evs.
Proof. intros. apply sumz_nonneg. intros [k|k|a b]; cbn; unfold one; lia. Qed.

Lemma stepped_same : forall c o t x, inv [] t -> arrived o x = [] -> (forall a, leak o a = 0) \/ leak o [] = 0 -> stepped c o t x t [].
Proof.
  intros c o t x I A Hl. constructor; auto.
  - intros g. rewrite A. cbn [sumz]. lia.
  - destruct Hl as [Hl|Hl]; rewrite Hl; lia.
  - cbn [sumz]. destruct Hl as [Hl|Hl]; rewrite Hl; lia.
  - intros H. destruct (H A).
Qed.
Lemma stepped_acct : forall c o t x t' evs, inv [] t' -> (dyn t -> dyn t') -> acct [] t [] t' evs -> arrived o x = [] -> leak o evs = 0 -> stepped c o t x t' evs.
Proof.
  intros c o t x t' evs I Hd A Ha Hl. destruct (acct_flow _ _ _ A) as [F G]. constructor; auto.
  - rewrite Ha. exact F.
  - rewrite Hl. unfold gauge in G. lia.
  - rewrite Hl. pose proof (freed_nonneg evs). lia.
  - intros H. destruct (H Ha).
Qed.

Theorem step_ok : forall c p o t, wf_op o -> inv [] t ->
  (step c p t o = UB /\ danger p t o) \/ exists x t' evs, step c p t o = Ok (x, t', evs) /\ stepped c o t x t' evs.
Proof.
  intros c p o t W I. destruct o as [d s6 d6 d4 now al|s4 d4 d6 now al|d s6 d6 d4 g now al|s4 d4 d6 g skb now al|e0 now al|now al|s6 s4 al|s6 s4|pf lo hi|]; cbn [step].
  - right. destruct (proto_eq_dec p TCP) as [->|Np]; [eexists _, _, _; split; [reflexivity|]; apply stepped_same; auto|].
    assert (X : exists x t' evs, bind (bib_add6 c p t d s6 d6 d4 now al) (fun r => let '(x0, en, t1, evs0) := r in Ok (RRc x0 en, t1, evs0)) = Ok (x, t', evs) /\ stepped c (OAdd6 d s6 d6 d4 now al) t x t' evs);
      [|destruct p; [congruence|exact X..]].
    destruct (bib_add6_ok c p t d s6 d6 d4 now al I W Np) as [(E1 & _)|(e & en & t1 & evs1 & f & t2 & E1 & F & (devs & Ed & Ev) & I2 & A2 & D2 & _)]; rewrite E1; cbn [bind].
    + eexists _, _, _. split; [reflexivity|]. apply stepped_same; auto.
    + assert (A0 : acct [] t (f_bdl f) (f_t f) (f_ev f)) by (destruct e; [exact (proj1 (proj2 (prep_old _ _ _ _ _ _ I F)))|exact (proj1 (proj2 (prep_err _ _ _ _ _ _ _ F)))]).
      destruct (finish_ok t f t2 [] A0 I2 A2) as (t1' & devs' & Ed' & I1 & A1 & D1 & _). assert (t1' = t1) by congruence. assert (devs' = devs) by congruence. subst t1' devs'.
      eexists _, _, _. split; [reflexivity|]. apply stepped_acct; auto. rewrite Ev. exact A1.
  - right. destruct (proto_eq_dec p TCP) as [->|Np]; [eexists _, _, _; split; [reflexivity|]; apply stepped_same; auto|].
    assert (X : exists x t' evs, bind (bib_add4 c p t s4 d4 d6 now al) (fun r => let '(x0, en, t1) := r in Ok (RRc x0 en, t1, [])) = Ok (x, t', evs) /\ stepped c (OAdd4 s4 d4 d6 now al) t x t' evs);
      [|destruct p; [congruence|exact X..]].
    destruct (bib_add4_ok c p t s4 d4 d6 now al I) as (e & en & t1 & E1 & I1 & A1 & D1 & _). rewrite E1. cbn [bind]. eexists _, _, _. split; [reflexivity|]. apply stepped_acct; auto.
  - destruct (proto_eq_dec p TCP) as [->|Np]; [|right; destruct p; [congruence|eexists _, _, _; (split; [reflexivity|]; apply stepped_same; auto)..]].
    destruct (bib_add_tcp6_ok c t d s6 d6 d4 g now al I W) as [(E1 & _)|[(E1 & B)|(e & v & en & t1 & f & t2 & evs2 & devs & E1 & F & Ed & I2 & A2 & D2 & _)]]; rewrite E1; cbn [bind].
    + right. eexists _, _, _. split; [reflexivity|]. apply stepped_same; auto.
    + left. split; [reflexivity|]. split; [reflexivity|]. destruct B as [(_ & n & Hn & Hw)|B]; [left|right; exact B]. destruct (q_find_ok _ _ _ Hn) as [H1 H2]. exists n. auto.
    + right. assert (A0 : acct [] t (f_bdl f) (f_t f) (f_ev f)) by (destruct e; [exact (proj1 (proj2 (prep_old _ _ _ _ _ _ I F)))|exact (proj1 (proj2 (prep_err _ _ _ _ _ _ _ F)))]).
      destruct (finish_ok t f t2 evs2 A0 I2 A2) as (t1' & devs' & Ed' & I1 & A1 & D1 & _). assert (t1' = t1) by congruence. assert (devs' = devs) by congruence. subst t1' devs'.
      eexists _, _, _. split; [reflexivity|]. apply stepped_acct; auto.
  - destruct (proto_eq_dec p TCP) as [->|Np]; [|right; destruct p; [congruence|eexists _, _, _; (split; [reflexivity|]; apply stepped_same; auto)..]].
    destruct (bib_add_tcp4_ok c t s4 d4 d6 g skb now al I) as [(E1 & B)|(v & en & t1 & evs1 & E1 & I1 & F1 & G1 & D1 & Hc)]; rewrite E1; cbn [bind].
    + left. split; [reflexivity|]. split; auto.
    + right. eexists _, _, _. split; [reflexivity|]. constructor; auto.
      * cbn [leak]. unfold gauge in G1. lia.
      * cbn [leak]. pose proof (freed_nonneg evs1). lia.
      * cbn [arrived]. intros H. inversion Hc as [E|v' en' sid s b Hs _ Hb _ Hf|E|bid b E|E|E|E|E|bid b en' Hb Hi|bid b en' Hb Hi]; subst v; try (destruct (H eq_refl)); try assumption.
        destruct Hf as (s0 & b0 & s1 & _ & _ & _ & _ & _ & _ & _ & _ & Hv). destruct (snd _) in Hv; destruct Hv as [-> _]; destruct (H eq_refl).
  - right. destruct (bib_add_session_ok c p t e0 now al I) as [E1|(y & t1 & evs1 & f & evs2 & E1 & -> & I1 & A1 & D1 & _)]; rewrite E1; cbn [bind].
    + eexists _, _, _. split; [reflexivity|]. apply stepped_same; auto.
    + eexists _, _, _. split; [reflexivity|]. apply stepped_acct; auto.
  - right. destruct (clean_table_ok c p now (fun u => dyn t -> dyn u)) with (t := t) (al := al) as (t1 & evs1 & E1 & I1 & A1 & D1 & _); auto.
    + intros k u i s b u' _ Iu Lu _ Hu _ Fd Hd. eapply dyn_fate; eauto.
    + rewrite E1. cbn [bind fst snd]. eexists _, _, _. split; [reflexivity|]. apply stepped_acct; auto.
  - right. destruct (bib_add_static_ok p t s6 s4 al I) as (y & t1 & evs1 & E1 & I1 & D1 & F1 & G1 & Hc). rewrite E1. cbn [bind]. eexists _, _, _. split; [reflexivity|]. constructor; auto; [|intros H; destruct (H eq_refl)].
    cbn [leak]. assert (X : forall l : list pnode, sumz (we one) (map (fun n => EvKill (q_skb n)) l) = Z.of_nat (length (map (fun n => EvKill (q_skb n)) l))) by (intros l; rewrite sum_kill, sum_one, map_length; reflexivity).
    inversion Hc as [_ Ev|? ? _ _ _ _ _ Ev|_ Ev|? _ _ _ _ _ _ _ _ _ _ Ev]; subst evs1; cbn [sumz length]; try lia. destruct p; try (cbn [sumz length]; lia). rewrite X. lia.
  - right. destruct (bib_rm_ok t s6 s4 I) as (y & t1 & evs1 & E1 & I1 & A1 & Hc). rewrite E1. cbn [bind]. eexists _, _, _. split; [reflexivity|]. apply stepped_acct; auto.
    destruct Hc as [(_ & i & b & _ & _ & _ & _ & R)|(_ & -> & _)]; [eapply removed_dyn; exact R|auto].
  - right. destruct (bib_rm_range_ok t pf lo hi I) as (t1 & evs1 & n & l & E1 & I1 & A1 & R & _). rewrite E1. cbn [bind fst snd]. eexists _, _, _. split; [reflexivity|]. apply stepped_acct; auto. eapply removed_dyn; exact R.
  - right. destruct (flush_table_ok t I) as (t1 & evs1 & E1 & I1 & A1 & R). rewrite E1. cbn [bind fst snd]. eexists _, _, _. split; [reflexivity|]. apply stepped_acct; auto. eapply removed_dyn; exact R.
Qed.

(** ** Histories *)
Definition wf (h : list (cfg * op)) : Prop := Forall (fun x => wf_op (snd x)) h.

Lemma init_inv : inv [] init_table.
Proof.
  constructor; unfold init_table; cbn [bibs sess tree6 tree4 n_bibs n_sess fresh queue].
  - constructor.
  - constructor.
  - intros i. split; [intros []|intros [H _]; congruence].
  - intros i. split; [intros []|intros [H _]; congruence].
  - constructor.
  - intros i [].
  - discriminate.
  - discriminate.
  - discriminate.
  - intros k. destruct k; constructor.
  - intros k j. split; [destruct k; intros []|intros (s & H & _); discriminate].
  - reflexivity.
  - reflexivity.
  - congruence.
  - congruence.
  - constructor.
Qed.
Lemma init_dyn : dyn init_table.
Proof. intros i b []. Qed.

(** The traffic of a history: packets handed over, and packets let go, in order. *)
Fixpoint trail (p : proto) (t : tb) (h : list (cfg * op)) : list Z :=
  match h with
  | [] => []
  | (c, o) :: h' => match step c p t o with Ok (x, t', _) => arrived o x ++ trail p t' h' | _ => [] end
  end.
Fixpoint leaks (p : proto) (t : tb) (h : list (cfg * op)) : Z :=
  match h with
  | [] => 0
  | (c, o) :: h' => match step c p t o with Ok (x, t', evs) => leak o evs + leaks p t' h' | _ => 0 end
  end.

Lemma sumz_app : forall A (f : A -> Z) a b, sumz f (a ++ b) = sumz f a + sumz f b.
Proof. intros A f a b. induction a as [|x a IH]; cbn [sumz app]; lia. Qed.

Theorem run_ok : forall p h t t' evs, wf h -> inv [] t -> run p t h = Ok (t', evs) ->
  inv [] t' /\ (dyn t -> dyn t') /\ flow (trail p t h) t t' evs /\ pkts t - wl one t - wq one t + leaks p t h = pkts t' - wl one t' - wq one t'.
Proof.
  intros p h. induction h as [|(c, o) h IH]; intros t t' evs W I E; cbn [run trail leaks] in *.
  - injection E as <- <-. split; [exact I|]. split; [auto|]. split; [intros g; cbn [sumz]; lia|lia].
  - apply Forall_cons_iff in W. destruct W as [W1 W2]. cbn [snd] in W1. destruct (step_ok c p o t W1 I) as [(E1 & _)|(x & t1 & e1 & E1 & [I1 D1 F1 G1 _ _])]; rewrite E1 in *; cbn [bind] in E; [discriminate|].
    destruct (run p t1 h) as [(t2, e2)| |] eqn:E2; cbn [bind fst snd] in E; try discriminate. injection E as <- <-.
    destruct (IH t1 t2 e2 W2 I1 E2) as (I2 & D2 & F2 & G2). split; [exact I2|]. split; [auto|]. split; [|lia].
    intros g. specialize (F1 g). specialize (F2 g). rewrite !sumz_app. lia.
Qed.

(** A property of tables that every operation of a history keeps. *)
Theorem run_P : forall p (P : tb -> Prop) h t t' evs, wf h -> (forall c o, In (c, o) h -> closed c p o P) -> inv [] t -> P t -> run p t h = Ok (t', evs) -> P t'.
Proof.
  intros p P h. induction h as [|(c, o) h IH]; intros t t' evs W C I Ht E; cbn [run] in E.
  - injection E as <- <-. exact Ht.
  - apply Forall_cons_iff in W. destruct W as [W1 W2]. cbn [snd] in W1. destruct (step_ok c p o t W1 I) as [(E1 & _)|(x & t1 & e1 & E1 & [I1 _ _ _ _ _])]; rewrite E1 in E; cbn [bind] in E; [discriminate|].
    destruct (run p t1 h) as [(t2, e2)| |] eqn:E2; cbn [bind fst snd] in E; try discriminate. injection E as <- <-.
    apply (IH t1 t2 e2 W2); auto; [intros c' o' H; apply C; right; exact H|]. apply (step_P c p o P t x t1 e1 W1); auto. apply C. left. reflexivity.
Qed.

(** ** Sessions whose state is a real one *)
Definition states_ok (t : tb) : Prop := forall j s, sess t j = Some s -> valid_state (s_state s).
Definition sync_ok (o : op) : Prop := match o with OSync e _ _ => valid_state (e_state e) | _ => True end.

Lemma reacts_valid : forall c p o e r, reacts c p o e r -> sync_ok o -> valid_state (e_state e) -> valid_state (e_state (fst r)).
Proof.
  intros c p o e r R S V. destruct o; cbn [reacts sync_ok] in *; try contradiction.
  - subst r. exact V.
  - subst r. exact V.
  - destruct R as [_ ->]. apply tsm_valid. exact V.
  - destruct R as [_ ->]. apply tsm_valid. exact V.
  - subst r. unfold collision_cb. destruct (session_equals e e0); [exact S|exact V].
  - destruct R as (k & _ & ->). unfold expire_cb. destruct p, k; try exact V. unfold tcp_est_expire_cb.
    repeat match goal with |- context [if ?b then _ else _] => destruct b end; try exact V; cbn; unfold valid_state, TRANS; lia.
Qed.

Lemma fate_sess : forall t t' i s e f now j s', fate_done t t' i s e f now -> sess t' j = Some s' ->
  (j <> i /\ sess t j = Some s') \/ (j = i /\ s_bib s' = s_bib s /\ s_state s' = e_state e /\ s_dst4 s' = s_dst4 s /\ s_dst6 s' = s_dst6 s /\ f <> FATE_RM).
Proof.
  intros t t' i s e f now j s' F Hj. destruct (Z.eq_dec j i) as [->|N].
  - right. split; [reflexivity|]. assert (Nf : f <> FATE_RM).
    { intros ->. cbn [fate_done] in F. rewrite (g_sess _ _ _ _ F), Z.eqb_refl in Hj. discriminate. }
    destruct (fate_keeps _ _ _ _ _ _ _ F Nf) as (s1 & K & A1 & A2 & A3 & A4 & _). rewrite (k_sess _ _ _ _ K), Z.eqb_refl in Hj. injection Hj as <-. auto.
  - left. split; [exact N|]. rewrite <- (fate_other _ _ _ _ _ _ _ j F N). exact Hj.
Qed.

Lemma static_sess : forall p t t' s6 s4 evs, static_case p t s6 s4 t' evs OK -> sess t' = sess t.
Proof. intros p t t' s6 s4 evs S. inversion S as [|i b H1 H2 H3 H4 E H5| |]; [rewrite E; reflexivity|assumption]. Qed.

Lemma states_closed : forall c p o, sync_ok o -> closed c p o states_ok.
Proof.
  intros c p o S. constructor.
  - intros D t t' i s b r I I' L Hb R F H j s' Hj. destruct (fate_sess _ _ _ _ _ _ _ _ _ F Hj) as [(_ & X)|(_ & _ & X & _)]; [exact (H _ _ X)|].
    rewrite X. apply (reacts_valid _ _ _ _ _ R S). cbn [entry_of e_state]. apply (H i s). apply L.
  - intros D t t' sid s b' I I' A _ C _ H j s' Hj. rewrite (a_sess _ _ _ _ _ A) in Hj. destruct (j =? sid); [|exact (H _ _ Hj)]. injection Hj as <-.
    destruct o; cbn [creates sync_ok] in *; try contradiction.
    + destruct C as (_ & -> & _). unfold valid_state, ESTABLISHED. lia.
    + destruct C as (_ & -> & _). unfold valid_state, ESTABLISHED. lia.
    + destruct C as (_ & [(-> & _)|(-> & _)] & _); unfold valid_state, V6_INIT, V4_INIT; lia.
    + destruct C as (_ & -> & _). unfold valid_state, V4_INIT. lia.
    + destruct C as (-> & _). exact S.
  - intros t t1 w masks bdl evs I Pr _ H j s. rewrite (p_sess _ _ _ _ _ _ Pr). apply H.
  - intros D t t' I _ Hs _ _ _ H j s Hj. apply Hs in Hj. apply (H j). apply Hj.
  - intros t t' l I R _ H j s Hj. apply (r_sess _ _ _ R) in Hj. apply (H j). apply Hj.
  - intros t q n H _. exact H.
  - intros t t' s6 s4 evs I St H j s Hj. rewrite (static_sess _ _ _ _ _ _ St) in Hj. exact (H j s Hj).
Qed.
