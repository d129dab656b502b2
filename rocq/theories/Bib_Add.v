(** Adding sessions: what the four packet operations and the synchronization
    do to a table. *)
Require Import Verif.Base Verif.Addr_Model Verif.Rtrie_Model Verif.Pool4_Model Verif.Pool4_Spec Verif.Fsm_Model Verif.Bib_Model
  Verif.Rbtree_Model Verif.Rbtree_Properties Verif.Bib_Inv Verif.Bib_Steps Verif.Bib_Fate Verif.Bib_Find.
Local Ltac Zify.zify_post_hook ::= idtac.

Lemma tstobs_ok : forall c p t sid s b, sess t sid = Some s -> bibs t (s_bib s) = Some b -> tstobs c p t sid = Ok (Session (entry_of c p b s)).
Proof. intros c p t sid s b Hs Hb. unfold tstobs, gets, tstose, getb. rewrite Hs. cbn [bind]. rewrite Hb. reflexivity. Qed.

Lemma prep_old : forall p t masks w now f, inv [] t -> found p t masks w now f OK -> inv (f_bdl f) (f_t f) /\ acct [] t (f_bdl f) (f_t f) (f_ev f) /\ (dyn t -> dyn (f_t f)).
Proof.
  intros p t masks w now f I H. inversion H as [bid b E1 E2 E3 E4 E5 E6|bid sid Hp E1 E2 E3 E4 U E5|P|x P E1 St E2 E3|].
  - rewrite E1, E2, E3. split; [exact I|]. split; [apply acct_refl|auto].
  - rewrite E1. destruct U as [U1 U2 (t0 & n & b' & P & A & _)]. split; [exact U1|]. split; [exact U2|]. intros Hd. eapply dyn_added; [exact A|]. eapply dyn_prep; eassumption.
  - split; [apply P|]. split; [apply P|]. eapply dyn_prep; exact P.
  - rewrite E1. split; [apply P|]. split; [apply P|]. eapply dyn_prep; exact P.
Qed.
Lemma prep_err : forall p t masks w now f x, found p t masks w now f (Err x) -> inv (f_bdl f) (f_t f) /\ acct [] t (f_bdl f) (f_t f) (f_ev f) /\ (dyn t -> dyn (f_t f)).
Proof. intros p t masks w now f x H. inversion H as [| | | |x' P]. split; [apply P|]. split; [apply P|]. eapply dyn_prep; exact P. Qed.

Lemma found_sess : forall p t masks w now f sid, inv [] t -> found p t masks w now f OK -> f_sess f = Some sid ->
  exists s, live (f_bdl f) (f_t f) sid s /\ f_bdl f = [].
Proof.
  intros p t masks w now f sid I H Hs. inversion H as [bid b E1 E2 E3 E4 E5 E6 E7 E8 E9 E10|bid sid' Hp E1 E2 E3 E4 U E5|P E1 E2|x P E1 St E2 E3|]; try congruence.
  - rewrite Hs in E10. cbn [hit] in E10. destruct E10 as [Hn _]. apply nth_error_In in Hn. apply (ibs _ _ I _ _ E5) in Hn. destruct Hn as (s & Hn & _). exists s.
    split; [split; [rewrite E1; exact Hn|rewrite E2; intros []]|exact E2].
  - destruct U as [U1 U2 (t0 & n & b' & P & A & _)]. assert (sid' = sid) by congruence. subst. eexists. split; [|exact E1]. eapply added_live; [exact A|rewrite E1; intros []].
Qed.

(** The new couple is linked. *)
Record couple (f : found6) (t3 : tb) (sid : Z) (s : tsess) (b' : tbib) (k : timer) (time : Z) (m : nat) : Prop := Couple {
  c_inv : inv (f_bdl f) t3;
  c_acct : acct (f_bdl f) (f_t f) (f_bdl f) t3 [];
  c_added : added (f_t f) t3 sid s b';
  c_s : s = TS (w_dst6 (f_new f)) (w_dst4 (f_new f)) (w_state (f_new f)) (s_bib s) time k None;
  c_6 : b_src6 b' = w_src6 (f_new f);
  c_bib : match f_bib f with Some bid => s_bib s = bid /\ bibs (f_t f) bid <> None
          | None => bibs (f_t f) (s_bib s) = None /\ b_src4 b' = w_src4 (f_new f) end;
  c_nd : ~ In (s_bib s) (f_bdl f);
  c_lists : forall k', list_of t3 k' = if same_timer k k' then insert_at m sid (list_of (f_t f) k') else list_of (f_t f) k' }.

Lemma completed_src6 : forall p w k, w_src6 (completed p w k) = w_src6 w.
Proof. intros []; reflexivity. Qed.

Lemma link_ok : forall p t masks w now f, inv [] t -> found p t masks w now f OK -> f_sess f = None ->
  (exists x, stale p t (f_t f) masks x /\ f_bib f = Some x /\ f_bdl f = [] /\ prep t (f_t f) w masks [] (f_ev f)) \/
  forall k time m, k <> T_BAD ->
  exists t2 sid t3 s b', link_new (f_t f) f k time = Ok (t2, sid) /\ list_of t2 k = list_of (f_t f) k /\
    set_list t2 k (insert_at m sid (list_of (f_t f) k)) = t3 /\ couple f t3 sid s b' k time m /\ w_src6 (f_new f) = w_src6 w.
Proof.
  intros p t masks w now f I H Hs. inversion H as [bid b E1 E2 E3 E4 E5 E6 E7 E8 E9 E10|bid sid' Hp E1 E2 E3 E4 U E5|P E1 E2 E3 B6 B4 Hc Hw|x P E1 St E2 E3|].
  - right. intros k time m Hk. rewrite Hs in E10. cbn [hit] in E10.
    set (s := TS (w_dst6 (f_new f)) (w_dst4 (f_new f)) (w_state (f_new f)) bid time k None). subst t. set (t1 := f_t f) in *.
    assert (If : inv [] (set_fresh t1 (fresh t1 + 1))) by (apply inv_fresh; [exact I|lia]).
    destruct (inv_fresh_none _ _ (fresh t1) I ltac:(lia)) as [_ F].
    destruct (new_sess_ok [] (set_fresh t1 (fresh t1 + 1)) (fresh t1) s b (f_ns f) m If E5 ltac:(intros []) F ltac:(simp; lia) E10 Hk) as (t3 & b' & E & I3 & A & Ff & Fp & W & L).
    unfold link_new. rewrite E4. cbv zeta. fold t1 s.
    assert (Ec : commit_session (set_fresh t1 (fresh t1 + 1)) (fresh t1) s bid (f_ns f) = Ok (add_sess (set_fresh t1 (fresh t1 + 1)) (fresh t1) s b (f_ns f))) by (apply (commit_session_eq _ _ s); exact E5).
    rewrite Ec. cbn [bind].
    assert (Ew : w_src6 (f_new f) = w_src6 w) by (rewrite E9; apply completed_src6).
    eexists _, _, t3, s, b'. split; [reflexivity|]. split; [destruct k; reflexivity|]. split; [change k with (s_exp s); rewrite <- E; destruct (s_exp s); reflexivity|]. split; [|exact Ew]. constructor.
    + rewrite E2. exact I3.
    + rewrite E2. fold t1. split; [intros g; destruct (W g) as (W1 & W2 & W3)|destruct (W one) as (W1 & W2 & W3)]; unfold s in W1; simp; cbn [sumz]; change (wl ?g (set_fresh t1 _)) with (wl g t1) in *.
      * rewrite W1, W2, W3. change (wq g (set_fresh t1 (fresh t1 + 1))) with (wq g t1). change (wd g [] (set_fresh t1 (fresh t1 + 1))) with (wd g [] t1). lia.
      * rewrite W1, W3, Fp. change (wq one (set_fresh t1 (fresh t1 + 1))) with (wq one t1). lia.
    + destruct A as [A1 A2 A3 A4 A5 A6 A7 A8]. simp. constructor; try assumption. rewrite Ff. simp. fold t1. lia.
    + reflexivity.
    + pose proof (a_b _ _ _ _ _ A) as X. simp. change (s_bib s) with bid in X. rewrite E5 in X. destruct X as (_ & X & _). congruence.
    + rewrite E4. split; [reflexivity|fold t1; congruence].
    + rewrite E2. intros [].
    + intros k'. rewrite L. change (s_exp s) with k. destruct k'; reflexivity.
  - congruence.
  - right. intros k time m Hk. set (t1 := f_t f) in *. pose proof (p_inv _ _ _ _ _ _ P) as I1.
    set (s := TS (w_dst6 (f_new f)) (w_dst4 (f_new f)) (w_state (f_new f)) (fresh t1 + 1) time k None).
    assert (If : inv (f_bdl f) (set_fresh t1 (fresh t1 + 2))) by (apply inv_fresh; [exact I1|lia]).
    destruct (inv_fresh_none _ _ (fresh t1) I1 ltac:(lia)) as [_ F]. destruct (inv_fresh_none _ _ (fresh t1 + 1) I1 ltac:(lia)) as [Fb _].
    assert (Ew : w_src6 (f_new f) = w_src6 w) by (rewrite Hw; destruct masks; [rewrite completed_src6|]; reflexivity).
    rewrite <- Ew in B6.
    destruct (new_both_ok (f_bdl f) (set_fresh t1 (fresh t1 + 2)) (fresh t1) s (w_src6 (f_new f)) (w_src4 (f_new f)) (f_n6 f) (f_n4 f) If Fb F ltac:(simp; lia) ltac:(unfold s; simp; lia) B6 B4 Hk m)
      as (t3 & b' & E & I3 & A & G6 & G4 & Ff & Fp & W & L).
    unfold link_new. rewrite E1. cbv zeta. fold t1. set (t2 := commit_bib _ _ _ _ _). change (fresh t1 + 1) with (s_bib s) at 2.
    assert (Eb : bibs t2 (s_bib s) = Some (TB (w_src6 (f_new f)) (w_src4 (f_new f)) false [])) by (unfold t2, commit_bib; simp; apply upd_eq).
    rewrite E3. fold s. change (fresh t1 + 1) with (s_bib s). rewrite (commit_session_eq _ _ s _ _ Eb). cbn [bind].
    eexists _, _, t3, s, b'. split; [reflexivity|]. split; [destruct k; reflexivity|]. split; [change k with (s_exp s); rewrite <- E; destruct (s_exp s); reflexivity|]. split; [|exact Ew]. constructor.
    + exact I3.
    + split; [intros g; destruct (W g) as (W1 & W2 & W3)|destruct (W one) as (W1 & W2 & W3)]; unfold s in W1; simp; cbn [sumz].
      * rewrite W1, W2, W3. change (wl g (set_fresh t1 (fresh t1 + 2))) with (wl g t1). change (wq g (set_fresh t1 (fresh t1 + 2))) with (wq g t1).
        change (wd g (f_bdl f) (set_fresh t1 (fresh t1 + 2))) with (wd g (f_bdl f) t1). fold t1. lia.
      * rewrite W1, W3, Fp. change (wl one (set_fresh t1 (fresh t1 + 2))) with (wl one t1). change (wq one (set_fresh t1 (fresh t1 + 2))) with (wq one t1). fold t1. lia.
    + destruct A as [A1 A2 A3 A4 A5 A6 A7 A8]. simp. constructor; try assumption. rewrite Ff. simp. fold t1. lia.
    + reflexivity.
    + exact G6.
    + rewrite E1. split; [exact Fb|exact G4].
    + intros C. exact (idl _ _ I1 _ C Fb).
    + intros k'. rewrite L. change (s_exp s) with k. destruct k'; reflexivity.
  - left. exists x. auto.
Qed.

(** What the packet operations on the IPv6 side do once the entry is found
    ([t2]: the table before the deletions). *)
Definition linked6 (c : cfg) (p : proto) (f : found6) (k : timer) (now : Z) (t2 : tb) (en : entries) : Prop :=
  exists sid s b', couple f t2 sid s b' k now (length (list_of (f_t f) k)) /\ en = Session (entry_of c p b' s).

Lemma commit_add6_ok : forall c p t masks w now f k, inv [] t -> found p t masks w now f OK -> f_sess f = None -> k <> T_BAD ->
  (exists x, stale p t (f_t f) masks x /\ f_bib f = Some x /\ f_bdl f = [] /\ prep t (f_t f) w masks [] (f_ev f)) \/
  w_src6 (f_new f) = w_src6 w /\ exists t2 en, commit_add6 c p (f_t f) f k now = Ok (t2, en) /\ linked6 c p f k now t2 en.
Proof.
  intros c p t masks w now f k I H Hs Hk. destruct (link_ok _ _ _ _ _ _ I H Hs) as [St|L]; [left; exact St|right].
  destruct (L k now (length (list_of (f_t f) k)) Hk) as (t2 & sid & t3 & s & b' & E & El & E3 & C & Ew). split; [exact Ew|].
  unfold commit_add6. rewrite E. cbn [bind].
  assert (Ea : attach_timer t2 sid k = t3) by (unfold attach_timer; rewrite El, <- E3, insert_end; reflexivity). rewrite Ea.
  assert (Hb : bibs t3 (s_bib s) = Some b') by (rewrite (a_bibs _ _ _ _ _ (c_added _ _ _ _ _ _ _ _ C)), Z.eqb_refl; reflexivity).
  assert (Hss : sess t3 sid = Some s) by (rewrite (a_sess _ _ _ _ _ (c_added _ _ _ _ _ _ _ _ C)), Z.eqb_refl; reflexivity).
  rewrite (tstobs_ok c p t3 sid s b' Hss Hb). cbn [bind]. eexists _, _. split; [reflexivity|]. exists sid, s, b'. auto.
Qed.

Lemma dyn_couple : forall f t3 sid s b' k time m, couple f t3 sid s b' k time m -> dyn (f_t f) -> dyn t3.
Proof. intros f t3 sid s b' k time m C. eapply dyn_added. apply C. Qed.

(** Finishing: the entries on the list go away. *)
Definition finished (t t' : tb) (f : found6) (t2 : tb) (evs : list ev) : Prop :=
  exists devs, commit_delete_list t2 (f_bdl f) = Ok (t', devs) /\ evs = f_ev f ++ devs.
Lemma finish_ok : forall t f t2 evs2, acct [] t (f_bdl f) (f_t f) (f_ev f) -> inv (f_bdl f) t2 -> acct (f_bdl f) (f_t f) (f_bdl f) t2 evs2 -> exists t' devs,
  commit_delete_list t2 (f_bdl f) = Ok (t', devs) /\ inv [] t' /\ acct [] t [] t' (f_ev f ++ evs2 ++ devs) /\ (dyn t2 -> dyn t') /\
  tree4 t' = tree4 t2 /\ (forall i, bibs t' i = if mem_id i (f_bdl f) then None else bibs t2 i) /\
  (forall j s, sess t' j = Some s <-> sess t2 j = Some s /\ ~ In (s_bib s) (f_bdl f)) /\ (forall k, list_of t' k = list_of t2 k) /\ queue t' = queue t2 /\ fresh t' = fresh t2.
Proof.
  intros t f t2 evs2 A1 I2 A2. destruct (delete_list_ok _ _ I2) as (t' & devs & E & I' & A' & Fb & Fs & T6 & T4 & L & Fq & Ff).
  exists t', devs. split; [exact E|]. split; [exact I'|]. split; [eapply acct_trans; [exact A1|eapply acct_trans; eassumption]|]. split; [|auto 10].
  intros Hd x b Hx Hb. rewrite T4 in Hx. rewrite Fb in Hb. destruct (mem_id x (f_bdl f)); [discriminate|]. exact (Hd x b Hx Hb).
Qed.

(** ** bib_add6 *)
Lemma alloc2_in : forall al a al', alloc_bib_session al = (a, al') -> (forall x, In x al' -> In x al) /\ (a = A_ok \/ In false al).
Proof.
  intros al a al'. unfold alloc_bib_session, draw_alloc. destruct al as [|x [|y al]]; [|destruct x|destruct x, y]; intros [= <- <-]; cbn [In]; split; auto.
Qed.
Lemma draw_in : forall al a al', draw_alloc al = (a, al') -> (forall x, In x al' -> In x al) /\ (a = true \/ In false al).
Proof. intros [|x al] a al' [= <- <-]; cbn [In]; split; auto. destruct x; auto. Qed.
Lemma bib_add6_ok : forall c p t d s6 d6 d4 now al, inv [] t -> masks_ok (Some d) -> p <> TCP ->
  let w := New s6 (0, 0) d6 d4 ESTABLISHED 0 in
  (bib_add6 c p t d s6 d6 d4 now al = Ok (Err ENOMEM, NoEntry, t, []) /\ In false al) \/
  exists e en t' evs f t2, bib_add6 c p t d s6 d6 d4 now al = Ok (e, en, t', evs) /\
    found p t (Some d) w now f e /\ finished t t' f t2 evs /\ inv (f_bdl f) t2 /\ acct (f_bdl f) (f_t f) (f_bdl f) t2 [] /\ (dyn t -> dyn t2) /\
    match e with
    | Err _ => en = NoEntry /\ t2 = f_t f
    | OK =>
      match f_sess f with
      | Some sid => exists s b, live [] t sid s /\ f_t f = t /\ f_bdl f = [] /\ bibs t (s_bib s) = Some b /\ kept t t2 sid (set_timer s now T_EST) /\ at_end t t2 sid T_EST /\
          en = Session (entry_of c p b (set_timer s now T_EST))
      | None => w_src6 (f_new f) = s6 /\ linked6 c p f T_EST now t2 en
      end
    end.
Proof.
  intros c p t d s6 d6 d4 now al I Hm Hp w. unfold bib_add6. destruct (alloc_bib_session al) as [a al'] eqn:Ea. destruct (alloc2_in _ _ _ Ea) as [_ Hok]. destruct a; [right|left; (split; [reflexivity|]; destruct Hok; [discriminate|assumption])..].
  destruct (find6_ok p t (Some d) w now al' I Hm) as (e & f & m & E & F). fold w. rewrite E. cbn [bind]. destruct e as [|x].
  - destruct (prep_old _ _ _ _ _ _ I F) as (I1 & A1 & D1). destruct (f_sess f) as [sid|] eqn:Es.
    + assert (Ft : f_t f = t /\ f_bdl f = []).
      { inversion F as [bid b E1 E2|bid sid' Hp'|P E1 E2|x P E1 St E2 E3|]; try congruence. auto. }
      destruct Ft as [Ft Fb]. destruct (found_sess _ _ _ _ _ _ _ I F Es) as (s & L & _). rewrite Ft, Fb in L.
      destruct (timer_ok [] t sid s T_EST now I L ltac:(discriminate)) as (t2 & Et & I2 & A2 & K & Le). rewrite Ft, Et. cbn [bind].
      destruct (live_bib _ _ _ _ I L) as (b & Hb & _). 
      assert (Hs2 : sess t2 sid = Some (set_timer s now T_EST)) by (rewrite (k_sess _ _ _ _ K), Z.eqb_refl; reflexivity).
      assert (Hb2 : bibs t2 (s_bib (set_timer s now T_EST)) = Some b) by (rewrite (k_bibs _ _ _ _ K); exact Hb).
      rewrite (tstobs_ok c p t2 sid _ b Hs2 Hb2). cbn [bind].
      destruct (finish_ok t f t2 [] A1) as (t' & devs & Ed & _); [rewrite Fb; exact I2|rewrite Fb, Ft; exact A2|]. rewrite Ed. cbn [bind fst snd].
      eexists OK, _, t', _, f, t2. split; [reflexivity|]. split; [exact F|]. split; [exists devs; auto|]. rewrite Fb, Ft. split; [exact I2|]. split; [exact A2|].
      split; [eapply dyn_kept; exact K|]. rewrite Es. exists s, b. auto 10.
    + destruct (commit_add6_ok c p t (Some d) w now f T_EST I F Es ltac:(discriminate)) as [(x & St & _)|(Ew & t2 & en & Ec & Lk)]; [destruct St; congruence|].
      rewrite Ec. cbn [bind fst snd]. pose proof Lk as (sid & s & b' & C & _).
      destruct (finish_ok t f t2 [] A1 (c_inv _ _ _ _ _ _ _ _ C) (c_acct _ _ _ _ _ _ _ _ C)) as (t' & devs & Ed & _). rewrite Ed. cbn [bind fst snd].
      eexists OK, _, t', _, f, t2. split; [reflexivity|]. split; [exact F|]. split; [exists devs; auto|]. split; [apply C|]. split; [apply C|].
      split; [intros Hd; eapply dyn_couple; [exact C|auto]|]. rewrite Es. auto.
  - destruct (prep_err _ _ _ _ _ _ _ F) as (I1 & A1 & D1). cbn [bind].
    destruct (finish_ok t f (f_t f) [] A1 I1 (acct_refl _ _)) as (t' & devs & Ed & _). rewrite Ed. cbn [bind fst snd].
    eexists (Err x), _, t', _, f, (f_t f). split; [reflexivity|]. split; [exact F|]. split; [exists devs; auto|]. split; [exact I1|]. split; [apply acct_refl|]. auto.
Qed.

(** ** The TCP state machine *)
Definition valid_state (x : Z) : Prop := 0 <= x <= 6.
Lemma tsm_valid : forall hr g e, valid_state (e_state e) -> snd (tcp_state_machine hr g e) <> FATE_RM /\ valid_state (e_state (fst (tcp_state_machine hr g e))).
Proof.
  intros hr g e H. unfold valid_state in *. unfold tcp_state_machine, ESTABLISHED, V4_INIT, V6_INIT, V4_FIN_RCV, V6_FIN_RCV, V4_FIN_V6_FIN_RCV, TRANS.
  destruct (e_state e =? 0) eqn:E0; [|destruct (e_state e =? 2) eqn:E2; [|destruct (e_state e =? 1) eqn:E1; [|destruct (e_state e =? 3) eqn:E3; [|destruct (e_state e =? 4) eqn:E4; [|destruct (e_state e =? 5) eqn:E5; [|destruct (e_state e =? 6) eqn:E6]]]]]]; try lia;
  unfold tcp_established_state, tcp_v4_init_state, tcp_v6_init_state, tcp_v4_fin_rcv_state, tcp_v6_fin_rcv_state, tcp_trans_state;
  repeat match goal with |- context [if ?b then _ else _] => destruct b | |- context [match sg_fam g with _ => _ end] => destruct (sg_fam g) end; cbn [fst snd]; (split; [discriminate|]);
  cbn [e_state with_state without_stored]; unfold V4_FIN_V6_FIN_RCV, ESTABLISHED, V4_FIN_RCV, V6_FIN_RCV, TRANS; lia.
Qed.
Lemma tsm_time : forall hr g e, e_time (fst (tcp_state_machine hr g e)) = e_time e /\ e_timer (fst (tcp_state_machine hr g e)) = e_timer e.
Proof.
  intros hr g e. unfold tcp_state_machine, tcp_established_state, tcp_v4_init_state, tcp_v6_init_state, tcp_v4_fin_rcv_state, tcp_v6_fin_rcv_state, tcp_trans_state.
  repeat match goal with |- context [if ?b then _ else _] => destruct b | |- context [match sg_fam g with _ => _ end] => destruct (sg_fam g) end; cbn [fst snd]; split; reflexivity.
Qed.
Lemma tsm_fates : forall hr g e, match snd (tcp_state_machine hr g e) with FATE_TIMER_SLOW | FATE_PROBE => False | _ => True end.
Proof.
  intros hr g e. unfold tcp_state_machine, tcp_established_state, tcp_v4_init_state, tcp_v6_init_state, tcp_v4_fin_rcv_state, tcp_v6_fin_rcv_state, tcp_trans_state.
  repeat match goal with |- context [if ?b then _ else _] => destruct b | |- context [match sg_fam g with _ => _ end] => destruct (sg_fam g) end; cbn [fst snd]; exact I.
Qed.

Lemma fate_keeps : forall t t' i s e f now, fate_done t t' i s e f now -> f <> FATE_RM -> exists s', kept t t' i s' /\ s_bib s' = s_bib s /\ s_dst4 s' = s_dst4 s /\ s_dst6 s' = s_dst6 s /\ s_state s' = e_state e /\
  (s_stored s' = None \/ s_stored s' = s_stored s).
Proof.
  intros t t' i s e f now H N. unfold fate_done in H. destruct f; try congruence;
    try (destruct H as [K _]; eexists; (split; [exact K|]); cbn [after s_bib s_dst4 s_dst6 s_state s_stored]; repeat (split; [reflexivity|]); destruct (e_stored e); auto).
  destruct (same_timer T_BAD (e_timer e)); destruct H as [K _]; (eexists; (split; [exact K|]); cbn [after s_bib s_dst4 s_dst6 s_state s_stored]; repeat (split; [reflexivity|]); destruct (e_stored e); auto).
Qed.

(** Feeding a segment to a session. *)
Definition fed (c : cfg) (t t2 : tb) (g : segment) (now sid : Z) (v : verdict) (en : entries) : Prop :=
  exists s b s', sess t sid = Some s /\ bibs t (s_bib s) = Some b /\ In (s_bib s) (tree4 t) /\
    let r := tcp_state_machine (c_handle_rst c) g (entry_of c TCP b s) in
    fate_done t t2 sid s (fst r) (snd r) now /\ snd r <> FATE_RM /\ kept t t2 sid s' /\ s_bib s' = s_bib s /\ s_state s' = e_state (fst r) /\
    match snd r with FATE_DROP => v = VDrop /\ en = NoEntry | _ => v = VContinue /\ en = Session (entry_of c TCP b s') end.

Lemma feed_ok : forall D c t g sid s now al, inv D t -> live D t sid s ->
  let x := let! r := decide_fate c TCP t (tcp_state_machine (c_handle_rst c) g) sid false now al in
          let '(ok, t, evs, _) := r in
          if ok then let! en := tstobs c TCP t sid in Ok (VContinue, en, t, evs)
          else Ok (VDrop, NoEntry, t, evs) in
  (x = UB /\ ~ valid_state (s_state s)) \/
  exists v en t2 evs, x = Ok (v, en, t2, evs) /\ inv D t2 /\ acct D t D t2 evs /\ (dyn t -> dyn t2) /\ fed c t t2 g now sid v en.
Proof.
  intros D c t g sid s now al I L x. destruct (decide_ok D c TCP t (tcp_state_machine (c_handle_rst c) g) sid s false now al I L) as (ok & t' & evs & al' & b & E & I' & A & Hb & Hi & Hok & Hf).
  unfold x. rewrite E. cbn [bind]. destruct (live_bib _ _ _ _ I L) as (b0 & Hb0 & _ & H4). assert (b0 = b) by congruence. subst b0.
  set (r := tcp_state_machine (c_handle_rst c) g (entry_of c TCP b s)) in *.
  assert (C : {snd r = FATE_RM} + {snd r <> FATE_RM}) by (destruct (snd r); (left; reflexivity) || (right; discriminate)). destruct C as [C|C].
  - left. rewrite C in Hok. subst ok. unfold fate_done in Hf. rewrite C in Hf. split.
    + unfold tstobs, gets. rewrite (g_sess _ _ _ _ Hf), Z.eqb_refl. reflexivity.
    + intros V. destruct (tsm_valid (c_handle_rst c) g (entry_of c TCP b s) V) as [V1 _]. apply V1. exact C.
  - right. destruct (fate_keeps _ _ _ _ _ _ _ Hf C) as (s' & K & K1 & K2 & K3 & K4 & _). set (y := snd r) in *.
    assert (Hs2 : sess t' sid = Some s') by (rewrite (k_sess _ _ _ _ K), Z.eqb_refl; reflexivity).
    assert (Hb2 : bibs t' (s_bib s') = Some b) by (rewrite (k_bibs _ _ _ _ K), K1; exact Hb).
    assert (Dy : dyn t -> dyn t') by (eapply dyn_fate; eassumption).
    rewrite (tstobs_ok c TCP t' sid s' b Hs2 Hb2). cbn [bind].
    destruct ok; (eexists _, _, _, _; (split; [reflexivity|]); (split; [exact I'|]); (split; [exact A|]); (split; [exact Dy|]); exists s, b, s'; (split; [apply L|]); (split; [exact Hb|]); (split; [exact H4|]); cbv zeta; fold r; fold y;
      (split; [exact Hf|]); (split; [exact C|]); (split; [exact K|]); (split; [exact K1|]); (split; [exact K4|])); destruct y; try discriminate; auto.
Qed.

(** ** bib_add_tcp6 *)
Definition bad_session (t : tb) : Prop := exists j s, sess t j = Some s /\ ~ valid_state (s_state s).

(** A stored packet was to become a session, and could not. *)
Definition mishap (t : tb) (d : domain) (w : newc) (now : Z) (al : list bool) : Prop :=
  queue t <> [] /\ exists n, q_find (queue t) (w_dst6 w) = Some n /\ (In false al \/ taken t (q_src4 n)).
Lemma stale_why : forall t d w now al f m x, inv [] t -> find_bib_session6 TCP t (Some d) w now al = Ok (OK, f, m) -> f_bib f = Some x -> stale TCP t (f_t f) (Some d) x ->
  mishap t d w now al.
Proof.
  intros t d w now al f m x I E Hx (_ & _ & Hq & Hn). split; [exact Hq|]. unfold find_bib_session6 in E. destruct (find6 _ _ (w_src6 w) I) as (o & n6 & E6 & H6). rewrite E6 in E. cbn [bind] in E.
  destruct o as [bid|].
  - exfalso. destruct H6 as [H6 _]. apply nth_error_In in H6. apply (in6 _ _ I) in H6. unfold getb in E. destruct (bibs t bid) as [b|] eqn:Eb; [|tauto]. cbn [bind] in E.
    destruct (negb (issue216_needed (Some d) b)) eqn:Ei.
    + destruct (finds _ _ bid b (w_dst4 w) I Eb) as (os & ns & a & Ef & _). rewrite Ef in E. cbn [bind] in E. injection E as <- _. cbn [f_bib f_t] in *. congruence.
    + destruct (detach_ok [] t bid b I Eb ltac:(intros [])) as (t1 & E1 & I1 & _). rewrite E1 in E. cbn [bind] in E. destruct (find6 _ _ (w_src6 w) I1) as (o & n6' & E6' & _). rewrite E6' in E. cbn [bind] in E.
      destruct o; [discriminate|]. unfold find_new in E. destruct (find_available_mask t1 d) as [([(k, n4)|], d')| |]; cbn [bind] in E; try discriminate. injection E as <- _. discriminate.
  - unfold upgrade_pktqueue_session, pktqueue_find in E. destruct (q_find (queue t) (w_dst6 w)) as [sos|] eqn:Eq.
    2:{ exfalso. cbn [bind] in E. unfold find_new in E. destruct (find_available_mask t d) as [([(k, n4)|], d')| |]; cbn [bind] in E; try discriminate. injection E as <- _. discriminate. }
    exists sos. split; [reflexivity|]. destruct (negb (mask_domain_matches d (fst (q_src4 sos)) (snd (q_src4 sos)))).
    { exfalso. cbn [bind] in E. unfold find_new in E. destruct (find_available_mask t d) as [([(k, n4)|], d')| |]; cbn [bind] in E; try discriminate. injection E as <- _. discriminate. }
    destruct (alloc_bib_session al) as [a al'] eqn:Ea. destruct (alloc2_in _ _ _ Ea) as [_ [->|Hf]]; [|left; exact Hf]. right.
    set (t0 := set_fresh _ _) in E. pose proof (q_find_ok _ _ _ Eq) as [Hin Hd]. pose proof (p_inv _ _ _ _ _ _ (take_queued t w (Some d) sos (fresh t + 2) I Hin Hd ltac:(lia))) as I0. change (inv [] t0) in I0.
    destruct (find6 _ _ (w_src6 w) I0) as (o & m6 & E60 & H60). rewrite E60 in E. cbn [bind] in E. destruct o as [i|].
    { exfalso. destruct H60 as [H60 K60]. apply nth_error_In in H60. apply (belongs_free6 _ _ _ _ I H6). exists i. split; [apply (in4 _ _ I); apply (in6 _ _ I); exact H60|exact K60]. }
    destruct (find4 _ _ (q_src4 sos) I0) as (o & n4 & E4 & H4). rewrite E4 in E. cbn [bind] in E.
    destruct o as [i|]; [destruct H4 as [H4 H5]; apply nth_error_In in H4; exists i; auto|]. exfalso.
    unfold commit_session, getb in E. match type of E with context [bibs (commit_bib ?u ?i ?b ?x ?y) ?j] => assert (Eb : bibs (commit_bib u i b x y) j = Some b) by (unfold commit_bib; simp; apply upd_eq); rewrite Eb in E end. cbn [bind] in E.
    injection E as <- _. cbn [f_bib f_t] in *. injection Hx as <-. revert Hn. unfold attach_timer, commit_bib. simp. rewrite upd_eq. discriminate.
Qed.

Lemma bib_add_tcp6_ok : forall c t d s6 d6 d4 g now al, inv [] t -> masks_ok (Some d) ->
  let w := New s6 (0, 0) d6 d4 V6_INIT 0 in
  (bib_add_tcp6 c t d s6 d6 d4 g now al = Ok (VDrop, NoEntry, t, []) /\ In false al) \/
  (bib_add_tcp6 c t d s6 d6 d4 g now al = UB /\ (mishap t d w now al \/ bad_session t)) \/
  exists e v en t' f t2 evs2 devs, bib_add_tcp6 c t d s6 d6 d4 g now al = Ok (v, en, t', f_ev f ++ evs2 ++ devs) /\
    found TCP t (Some d) w now f e /\ commit_delete_list t2 (f_bdl f) = Ok (t', devs) /\ inv (f_bdl f) t2 /\ acct (f_bdl f) (f_t f) (f_bdl f) t2 evs2 /\ (dyn t -> dyn t2) /\
    match e with
    | Err _ => v = VDrop /\ en = NoEntry /\ t2 = f_t f
    | OK =>
      match f_sess f with
      | Some sid => f_bdl f = [] /\ fed c (f_t f) t2 g now sid v en
      | None =>
        if sg_syn g then w_src6 (f_new f) = s6 /\ v = VContinue /\ linked6 c TCP f T_TRANS now t2 en
        else t2 = f_t f /\ match f_bib f with
             | Some bid => v = VContinue /\ exists b, bibs t bid = Some b /\ In bid (tree4 t) /\ b_src6 b = s6 /\ en = BibOnly (b_src6 b) (b_src4 b)
             | None => v = VDrop /\ en = NoEntry end
      end
    end.
Proof.
  intros c t d s6 d6 d4 g now al I Hm w. unfold bib_add_tcp6. destruct (alloc_bib_session al) as [a al'] eqn:Ea. destruct (alloc2_in _ _ _ Ea) as [Hal Hok]. destruct a; [right|left; (split; [reflexivity|]; destruct Hok; [discriminate|assumption])..].
  assert (Mis : mishap t d w now al' -> mishap t d w now al) by (intros (M1 & n & M2 & [M3|M3]); (split; [exact M1|]); exists n; auto).
  destruct (find6_ok TCP t (Some d) w now al' I Hm) as (e & f & m & E & F). fold w. rewrite E. cbn [bind]. destruct e as [|x].
  - destruct (prep_old _ _ _ _ _ _ I F) as (I1 & A1 & D1). destruct (f_sess f) as [sid|] eqn:Es.
    + destruct (found_sess _ _ _ _ _ _ _ I F Es) as (s & L & Fb).
      destruct (feed_ok _ c (f_t f) g sid s now (f_al f) I1 L) as [[Ex Hv]|(v & en & t2 & evs2 & Ex & I2 & A2 & D2 & Hf)]; cbv zeta in Ex; rewrite Ex; cbn [bind].
      * left. split; [reflexivity|]. right. inversion F as [bid b E1 E2|bid sid' Hp' E1 E2 E3 E4 U|P E1 E2|x P E1 St E2 E3|]; try congruence.
        -- exists sid, s. split; [rewrite <- E1; apply L|exact Hv].
        -- exfalso. apply Hv. destruct U as [_ _ (t0 & n & b' & _ & A & _)]. assert (sid' = sid) by congruence. subst sid'.
           assert (X : s_state s = V4_INIT) by (pose proof (a_sess _ _ _ _ _ A sid) as X; rewrite Z.eqb_refl, (proj1 L) in X; injection X as ->; reflexivity).
           rewrite X. unfold valid_state, V4_INIT. lia.
      * right. destruct (finish_ok t f t2 evs2 A1 I2 A2) as (t' & devs & Ed & _). rewrite Ed. cbn [bind fst snd].
        exists OK, v, en, t', f, t2, evs2, devs. split; [reflexivity|]. split; [exact F|]. split; [exact Ed|]. split; [exact I2|]. split; [exact A2|]. split; [auto|]. rewrite Es. split; [exact Fb|exact Hf].
    + destruct (sg_syn g) eqn:Eg.
      * destruct (commit_add6_ok c TCP t (Some d) w now f T_TRANS I F Es ltac:(discriminate)) as [(x & St & Hx & Hb0 & P)|(Ew & t2 & en & Ec & Lk)].
        -- left. split; [|left; apply Mis; exact (stale_why _ _ _ _ _ _ _ _ I E Hx St)]. unfold commit_add6, link_new. rewrite Hx. unfold commit_session, getb. simp. destruct St as (_ & _ & _ & Hn). rewrite Hn. reflexivity.
        -- right. rewrite Ec. cbn [bind fst snd]. pose proof Lk as (sid & s & b' & C & _).
           destruct (finish_ok t f t2 [] A1 (c_inv _ _ _ _ _ _ _ _ C) (c_acct _ _ _ _ _ _ _ _ C)) as (t' & devs & Ed & _). rewrite Ed. cbn [bind fst snd].
           eexists OK, VContinue, en, t', f, t2, [], devs. split; [reflexivity|]. split; [exact F|]. split; [exact Ed|]. split; [apply C|]. split; [apply C|].
           split; [intros Hd; eapply dyn_couple; [exact C|auto]|]. rewrite Es. auto.
      * destruct (f_bib f) as [bid|] eqn:Eb.
        -- inversion F as [bid' b E1 E2 E3 E4 E5 E6 E7 E8|bid' sid' Hp' E1 E2 E3 E4 U|P E1 E2|x P E1 St E2 E3|]; try congruence.
           ++ right. assert (bid' = bid) by congruence. subst bid'. unfold getb. rewrite E1, E5. cbn [bind].
              destruct (finish_ok t f t [] A1) as (t' & devs & Ed & _); [rewrite E2; exact I|rewrite E1; apply acct_refl|]. rewrite Ed. cbn [bind fst snd].
              eexists OK, VContinue, _, t', f, t, [], devs. split; [reflexivity|]. split; [exact F|]. split; [exact Ed|]. rewrite E1, E2. split; [exact I|]. split; [apply acct_refl|]. split; [auto|]. rewrite Es.
              split; [reflexivity|]. rewrite Eb. split; [reflexivity|]. exists b. auto.
           ++ left. assert (x = bid) by congruence. subst x. unfold getb. destruct St as (S1 & S2 & S3 & S4). rewrite S4. cbn [bind]. split; [reflexivity|]. left. apply Mis. refine (stale_why _ _ _ _ _ _ _ bid I E Eb _). split; auto.
        -- right. cbn [bind]. destruct (finish_ok t f (f_t f) [] A1 I1 (acct_refl _ _)) as (t' & devs & Ed & _). rewrite Ed. cbn [bind fst snd].
           eexists OK, VDrop, _, t', f, (f_t f), [], devs. split; [reflexivity|]. split; [exact F|]. split; [exact Ed|]. split; [exact I1|]. split; [apply acct_refl|]. split; [auto|]. rewrite Es, Eb. auto.
  - right. destruct (prep_err _ _ _ _ _ _ _ F) as (I1 & A1 & D1). cbn [bind].
    destruct (finish_ok t f (f_t f) [] A1 I1 (acct_refl _ _)) as (t' & devs & Ed & _). rewrite Ed. cbn [bind fst snd].
    eexists (Err x), VDrop, NoEntry, t', f, (f_t f), [], devs. split; [reflexivity|]. split; [exact F|]. split; [exact Ed|]. split; [exact I1|]. split; [apply acct_refl|]. auto.
Qed.

(** ** The IPv4 side *)
Lemma find4_ok : forall D t src4 dst4, inv D t -> exists ob os n a, find_bib_session4 t src4 dst4 = Ok (ob, os, n, a) /\
  match ob with
  | None => os = None /\ a = false /\ ~ taken t src4
  | Some bid => exists b, bibs t bid = Some b /\ In bid (tree4 t) /\ b_src4 b = src4 /\ hit (keys t) dst4 (b_sess b) (os, n) /\
      (a = true <-> exists j s, sess t j = Some s /\ s_bib s = bid /\ fst (s_dst4 s) = fst dst4)
  end.
Proof.
  intros D t src4 dst4 I. unfold find_bib_session4. destruct (find4 _ _ src4 I) as (o & n4 & E & H). rewrite E. cbn [bind fst]. destruct o as [bid|]; cbn [hit] in H.
  - destruct H as [Hn K]. apply nth_error_In in Hn. pose proof Hn as Hn'. apply (in4 _ _ I) in Hn'. destruct (bibs t bid) as [b|] eqn:Hb; [|tauto].
    destruct (finds _ _ bid b dst4 I Hb) as (os & n & a & Ef & Hh & Ha). rewrite Ef. cbn [bind]. eexists _, _, _, _. split; [reflexivity|]. exists b.
    split; [exact Hb|]. split; [exact Hn|]. split; [unfold key4 in K; rewrite Hb in K; exact K|auto].
  - eexists _, _, _, _. split; [reflexivity|]. split; [reflexivity|]. split; [reflexivity|eapply belongs_free; exact H].
Qed.

Definition linked4 (c : cfg) (p : proto) (t t2 : tb) (bid : Z) (s0 : tsess) (en : entries) : Prop :=
  exists sid s b', added t t2 sid s b' /\ s = s0 /\ s_bib s0 = bid /\ en = Session (entry_of c p b' s) /\
  (forall k, list_of t2 k = if same_timer (s_exp s0) k then list_of t k ++ [sid] else list_of t k).

Lemma commit_add4_ok : forall c p t bid b n dst6 dst4 st stored k now, inv [] t -> bibs t bid = Some b -> belongs (keys t) dst4 (b_sess b) n -> k <> T_BAD ->
  exists t2 en, commit_add4 c p t bid n dst6 dst4 st stored k now = Ok (t2, en) /\ inv [] t2 /\ pkts t2 = pkts t /\
  (forall g, wl g t2 = wl g t + (match stored with Some k => g k | None => 0 end) /\ wd g [] t2 = wd g [] t /\ wq g t2 = wq g t) /\
  linked4 c p t t2 bid (TS dst6 dst4 st bid now k stored) en /\ (dyn t -> dyn t2).
Proof.
  intros c p t bid b n dst6 dst4 st stored k now I Hb B Hk. set (s := TS dst6 dst4 st bid now k stored).
  assert (If : inv [] (set_fresh t (fresh t + 1))) by (apply inv_fresh; [exact I|lia]).
  destruct (inv_fresh_none _ _ (fresh t) I ltac:(lia)) as [_ F].
  destruct (new_sess_ok [] (set_fresh t (fresh t + 1)) (fresh t) s b n (length (list_of t k)) If Hb ltac:(intros []) F ltac:(simp; lia) B Hk) as (t2 & b' & E & I2 & A & Ff & Fp & W & L).
  unfold commit_add4. assert (Ec : commit_session (set_fresh t (fresh t + 1)) (fresh t) s bid n = Ok (add_sess (set_fresh t (fresh t + 1)) (fresh t) s b n)) by (apply (commit_session_eq _ _ s); exact Hb).
  fold s. cbv zeta. rewrite Ec. cbn [bind].
  assert (Ea : attach_timer (add_sess (set_fresh t (fresh t + 1)) (fresh t) s b n) (fresh t) k = t2).
  { rewrite <- E. unfold attach_timer. change (s_exp s) with k. assert (El : list_of (set_fresh t (fresh t + 1)) k = list_of t k) by (destruct k; reflexivity). rewrite El, insert_end. destruct k; reflexivity. }
  rewrite Ea.
  assert (A' : added t t2 (fresh t) s b').
  { destruct A as [A1 A2 A3 A4 A5 A6 A7 A8]. simp. constructor; try assumption. rewrite Ff. simp. lia. }
  assert (Hb' : bibs t2 (s_bib s) = Some b') by (rewrite (a_bibs _ _ _ _ _ A), Z.eqb_refl; reflexivity).
  assert (Hss : sess t2 (fresh t) = Some s) by (rewrite (a_sess _ _ _ _ _ A), Z.eqb_refl; reflexivity).
  rewrite (tstobs_ok c p t2 _ s b' Hss Hb'). cbn [bind]. eexists _, _. split; [reflexivity|]. split; [exact I2|]. split; [exact Fp|]. split; [exact W|]. split; [|eapply dyn_added; exact A'].
  exists (fresh t), s, b'. split; [exact A'|]. split; [reflexivity|]. split; [reflexivity|]. split; [reflexivity|]. intros k'. rewrite L. change (s_exp s) with k.
  destruct (same_timer k k') eqn:Ek; [|destruct k'; reflexivity]. apply same_timer_eq in Ek. subst k'. assert (El : list_of (set_fresh t (fresh t + 1)) k = list_of t k) by (destruct k; reflexivity). rewrite El. apply insert_end.
Qed.

Lemma bib_add4_ok : forall c p t src4 dst4 dst6 now al, inv [] t -> exists e en t', bib_add4 c p t src4 dst4 dst6 now al = Ok (e, en, t') /\
  inv [] t' /\ acct [] t [] t' [] /\ (dyn t -> dyn t') /\
  ((e = Err ENOMEM /\ t' = t /\ en = NoEntry /\ In false al) \/ (e = Err ESRCH /\ t' = t /\ en = NoEntry /\ ~ taken t src4) \/
   exists bid b, bibs t bid = Some b /\ In bid (tree4 t) /\ b_src4 b = src4 /\
   ((exists sid s, live [] t sid s /\ s_bib s = bid /\ s_dst4 s = dst4 /\ e = OK /\ kept t t' sid (set_timer s now T_EST) /\ at_end t t' sid T_EST /\ en = Session (entry_of c p b (set_timer s now T_EST))) \/
    ((forall j s, sess t j = Some s -> s_bib s = bid -> s_dst4 s <> dst4) /\
     let allow := c_drop_by_addr c = false \/ exists j s, sess t j = Some s /\ s_bib s = bid /\ fst (s_dst4 s) = fst dst4 in
     ((~ allow /\ e = Err EPERM /\ t' = t /\ en = NoEntry) \/
      (allow /\ e = OK /\ linked4 c p t t' bid (TS dst6 dst4 ESTABLISHED bid now T_EST None) en))))).
Proof.
  intros c p t src4 dst4 dst6 now al I. unfold bib_add4. destruct (draw_alloc al) as [a al'] eqn:Ea. destruct (draw_in _ _ _ Ea) as [_ Hok]. destruct a; cbn [negb].
  2:{ eexists _, _, _. split; [reflexivity|]. split; [exact I|]. split; [apply acct_refl|]. split; [auto|]. left. destruct Hok; [discriminate|auto]. }
  destruct (find4_ok _ _ src4 dst4 I) as (ob & os & n & al2 & E & H). rewrite E. cbn [bind]. destruct ob as [bid|].
  2:{ destruct H as (-> & _ & H). eexists _, _, _. split; [reflexivity|]. split; [exact I|]. split; [apply acct_refl|]. split; [auto|]. right. left. auto. }
  destruct H as (b & Hb & H4 & E4 & Hh & Ha). destruct os as [sid|]; cbn [hit] in Hh.
  - destruct Hh as [Hn Hk]. apply nth_error_In in Hn. apply (ibs _ _ I _ _ Hb) in Hn. destruct Hn as (s & Hs & Es). assert (L : live [] t sid s) by (split; [exact Hs|intros []]).
    destruct (timer_ok [] t sid s T_EST now I L ltac:(discriminate)) as (t2 & Et & I2 & A2 & K & Le). rewrite Et. cbn [bind].
    assert (Hs2 : sess t2 sid = Some (set_timer s now T_EST)) by (rewrite (k_sess _ _ _ _ K), Z.eqb_refl; reflexivity).
    assert (Hb2 : bibs t2 (s_bib (set_timer s now T_EST)) = Some b) by (rewrite (k_bibs _ _ _ _ K); simp; rewrite Es; exact Hb).
    rewrite (tstobs_ok c p t2 sid _ b Hs2 Hb2). cbn [bind]. eexists _, _, _. split; [reflexivity|]. split; [exact I2|]. split; [exact A2|]. split; [eapply dyn_kept; exact K|].
    right. right. exists bid, b. split; [exact Hb|]. split; [exact H4|]. split; [exact E4|]. left. exists sid, s. unfold keys in Hk. rewrite Hs in Hk. auto 10.
  - assert (Hno : forall j s, sess t j = Some s -> s_bib s = bid -> s_dst4 s <> dst4).
    { intros j s Hs Es Ed. assert (Hj : In j (b_sess b)) by (apply (ibs _ _ I _ _ Hb); eauto). destruct Hh as (B1 & B2 & B3). rewrite <- (firstn_skipn n (b_sess b)) in Hj. apply in_app_or in Hj.
      destruct Hj as [Hj|Hj]; [apply B2 in Hj|apply B3 in Hj]; unfold keys in Hj; rewrite Hs, Ed in Hj; exact (lt_ta_irr _ Hj). }
    destruct (c_drop_by_addr c && negb al2) eqn:Ed.
    + eexists _, _, _. split; [reflexivity|]. split; [exact I|]. split; [apply acct_refl|]. split; [auto|]. right. right. exists bid, b. split; [exact Hb|]. split; [exact H4|]. split; [exact E4|]. right. split; [exact Hno|].
      left. apply andb_true_iff in Ed. destruct Ed as [Ed1 Ed2]. split; [|auto]. intros [C|C]; [congruence|]. apply Ha in C. rewrite C in Ed2. discriminate.
    + destruct (commit_add4_ok c p t bid b n dst6 dst4 ESTABLISHED None T_EST now I Hb Hh ltac:(discriminate)) as (t2 & en & Ec & I2 & Fp & W & Lk & Dy). rewrite Ec. cbn [bind fst snd].
      eexists _, _, _. split; [reflexivity|]. split; [exact I2|]. split.
      { split; [intros g; destruct (W g) as (W1 & W2 & W3); cbn [sumz]; lia|]. destruct (W one) as (W1 & W2 & W3). lia. }
      split; [exact Dy|]. right. right. exists bid, b. split; [exact Hb|]. split; [exact H4|]. split; [exact E4|]. right. split; [exact Hno|]. right. split; [|auto].
      apply andb_false_iff in Ed. destruct Ed as [Ed|Ed]; [left; exact Ed|right; apply Ha; destruct al2; [reflexivity|discriminate]].
Qed.
