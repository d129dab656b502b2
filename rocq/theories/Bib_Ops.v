(** The remaining operations, and any one step. *)
Require Import Verif.Base Verif.Addr_Model Verif.Rtrie_Model Verif.Pool4_Model Verif.Pool4_Spec Verif.Fsm_Model Verif.Bib_Model
  Verif.Rbtree_Model Verif.Rbtree_Properties Verif.Bib_Inv Verif.Bib_Steps Verif.Bib_Fate Verif.Bib_Find Verif.Bib_Add.
Local Ltac Zify.zify_post_hook ::= idtac.

(** Packets [add] came in, [evs] went out. *)
Definition flow (add : list Z) (t t' : tb) (evs : list ev) : Prop :=
  forall g, wl g t + wq g t + sumz g add = wl g t' + wq g t' + sumz (we g) evs.
Definition gauge (t t' : tb) : Prop := pkts t - wl one t - wq one t = pkts t' - wl one t' - wq one t'.
Lemma acct_flow : forall t t' evs, acct [] t [] t' evs -> flow [] t t' evs /\ gauge t t'.
Proof. intros t t' evs [H1 H2]. split; [|exact H2]. intros g. specialize (H1 g). unfold wd in H1. cbn [sumz] in *. lia. Qed.

(** ** bib_add_tcp4 *)
Definition too_many (c : cfg) (t : tb) : bool := c_max_stored_pkts c <=? u32 (pkts t).

Inductive tcp4_case (c : cfg) (t : tb) (src4 dst4 dst6 : ta) (g : segment) (skb now : Z) (al : list bool) (t' : tb) : verdict -> entries -> Prop :=
| T4_nomem : t' = t -> In false al -> tcp4_case c t src4 dst4 dst6 g skb now al t' VDrop NoEntry
| T4_fed : forall v en sid s b, sess t sid = Some s -> s_dst4 s = dst4 -> bibs t (s_bib s) = Some b -> b_src4 b = src4 -> fed c t t' g now sid v en ->
    tcp4_case c t src4 dst4 dst6 g skb now al t' v en
| T4_nothing : t' = t -> ~ taken t src4 -> sg_syn g = false \/ c_drop_external_tcp c = true -> tcp4_case c t src4 dst4 dst6 g skb now al t' VDrop NoEntry
| T4_bib : forall bid b, t' = t -> bibs t bid = Some b -> In bid (tree4 t) -> b_src4 b = src4 -> sg_syn g = false ->
    (forall j s, sess t j = Some s -> s_bib s = bid -> s_dst4 s <> dst4) -> tcp4_case c t src4 dst4 dst6 g skb now al t' VContinue (BibOnly (b_src6 b) (b_src4 b))
| T4_ext : t' = t -> taken t src4 -> sg_syn g = true -> c_drop_external_tcp c = true -> tcp4_case c t src4 dst4 dst6 g skb now al t' VDrop NoEntry
| T4_queued : t' = set_pkts (set_queue t (queue t ++ [PN dst6 src4 dst4 skb now])) (pkts t + 1) -> ~ taken t src4 -> sg_syn g = true -> c_drop_external_tcp c = false ->
    q_find (queue t) dst6 = None -> too_many c t = false -> tcp4_case c t src4 dst4 dst6 g skb now al t' VStolen NoEntry
| T4_full : t' = t -> sg_syn g = true -> c_drop_external_tcp c = false -> too_many c t = true -> (~ taken t src4 \/ c_drop_by_addr c = true) -> tcp4_case c t src4 dst4 dst6 g skb now al t' VDropIcmp NoEntry
| T4_dup : t' = t -> ~ taken t src4 -> sg_syn g = true -> c_drop_external_tcp c = false -> tcp4_case c t src4 dst4 dst6 g skb now al t' VDrop NoEntry
| T4_stored : forall bid b en, bibs t bid = Some b -> In bid (tree4 t) -> b_src4 b = src4 -> sg_syn g = true -> c_drop_external_tcp c = false -> c_drop_by_addr c = true -> too_many c t = false ->
    (forall j s, sess t j = Some s -> s_bib s = bid -> s_dst4 s <> dst4) -> pkts t' = pkts t + 1 ->
    linked4 c TCP t t' bid (TS dst6 dst4 V4_INIT bid now T_SYN4 (Some skb)) en -> tcp4_case c t src4 dst4 dst6 g skb now al t' VStolen en
| T4_added : forall bid b en, bibs t bid = Some b -> In bid (tree4 t) -> b_src4 b = src4 -> sg_syn g = true -> c_drop_external_tcp c = false -> c_drop_by_addr c = false ->
    (forall j s, sess t j = Some s -> s_bib s = bid -> s_dst4 s <> dst4) ->
    linked4 c TCP t t' bid (TS dst6 dst4 V4_INIT bid now T_TRANS None) en -> tcp4_case c t src4 dst4 dst6 g skb now al t' VContinue en.

Definition stolen (v : verdict) (skb : Z) : list Z := match v with VStolen => [skb] | _ => [] end.

Lemma q_find_none : forall q k, q_find q k = None -> ~ In k (map q_dst6 q).
Proof.
  intros q k H C. apply in_map_iff in C. destruct C as (n & E & Hn). unfold q_find in H. apply (find_none _ _ H) in Hn. rewrite E in Hn. rewrite (proj2 (ta_eqb_eq _ _) eq_refl) in Hn. discriminate.
Qed.
Lemma nodup_snoc : forall (l : list ta) k, NoDup l -> ~ In k l -> NoDup (l ++ [k]).
Proof. intros l k H1 H2. apply NoDup_Add with (1 := Add_app k l []). rewrite app_nil_r. auto. Qed.

Lemma bib_add_tcp4_ok : forall c t src4 dst4 dst6 g skb now al, inv [] t ->
  (bib_add_tcp4 c t src4 dst4 dst6 g skb now al = UB /\ bad_session t) \/
  exists v en t' evs, bib_add_tcp4 c t src4 dst4 dst6 g skb now al = Ok (v, en, t', evs) /\ inv [] t' /\ flow (stolen v skb) t t' evs /\ gauge t t' /\ (dyn t -> dyn t') /\
    tcp4_case c t src4 dst4 dst6 g skb now al t' v en.
Proof.
  intros c t src4 dst4 dst6 g skb now al I. unfold bib_add_tcp4. destruct (draw_alloc al) as [a al'] eqn:Ea. destruct (draw_in _ _ _ Ea) as [Ia Ha]. destruct a; cbn [negb].
  2:{ right. eexists _, _, _, _. split; [reflexivity|]. split; [exact I|]. destruct (acct_flow _ _ _ (acct_refl [] t)) as [Fl Fg]. split; [exact Fl|]. split; [exact Fg|]. split; [auto|]. apply T4_nomem; [reflexivity|]. destruct Ha as [Ha|Ha]; [discriminate|exact Ha]. }
  destruct (acct_flow _ _ _ (acct_refl [] t)) as [Fl Fg].
  destruct (find4_ok _ _ src4 dst4 I) as (ob & os & n & al2 & E & H). rewrite E. cbn [bind]. destruct os as [sid|].
  - destruct ob as [bid|]; [|destruct H; discriminate]. destruct H as (b & Hb & H4 & E4 & Hh & _). cbn [hit] in Hh. destruct Hh as [Hn Hk]. apply nth_error_In in Hn. apply (ibs _ _ I _ _ Hb) in Hn.
    destruct Hn as (s & Hs & Es). assert (L : live [] t sid s) by (split; [exact Hs|intros []]). unfold keys in Hk. rewrite Hs in Hk. subst bid.
    destruct (feed_ok _ c t g sid s now al' I L) as [[Ex Hv]|(v & en & t2 & evs2 & Ex & I2 & A2 & D2 & Hf)]; cbv zeta in Ex; rewrite Ex; cbn [bind].
    + left. split; [reflexivity|]. exists sid, s. auto.
    + right. exists v, en, t2, evs2. split; [reflexivity|]. split; [exact I2|]. destruct (acct_flow _ _ _ A2) as [Fl2 Fg2].
      assert (Hv : stolen v skb = []) by (destruct Hf as (s1 & b1 & s1' & _ & _ & _ & X); cbv zeta in X; destruct X as (_ & _ & _ & _ & _ & X); destruct (snd (tcp_state_machine (c_handle_rst c) g (entry_of c TCP b1 s1))); destruct X as [-> _]; reflexivity).
      rewrite Hv. split; [exact Fl2|]. split; [exact Fg2|]. split; [exact D2|]. eapply T4_fed; eassumption.
  - destruct (sg_syn g) eqn:Eg; cbn [negb].
    2:{ right. destruct ob as [bid|].
      - destruct H as (b & Hb & H4 & E4 & Hh & _). unfold getb. rewrite Hb. cbn [bind]. eexists _, _, _, _. split; [reflexivity|]. split; [exact I|]. split; [exact Fl|]. split; [exact Fg|]. split; [auto|].
        eapply T4_bib; try eassumption; [reflexivity|]. intros j s Hs Es Ed. assert (Hj : In j (b_sess b)) by (apply (ibs _ _ I _ _ Hb); eauto). cbn [hit] in Hh. destruct Hh as (B1 & B2 & B3).
        rewrite <- (firstn_skipn n (b_sess b)) in Hj. apply in_app_or in Hj. destruct Hj as [Hj|Hj]; [apply B2 in Hj|apply B3 in Hj]; unfold keys in Hj; rewrite Hs, Ed in Hj; exact (lt_ta_irr _ Hj).
      - destruct H as (_ & _ & H). eexists _, _, _, _. split; [reflexivity|]. split; [exact I|]. split; [exact Fl|]. split; [exact Fg|]. split; [auto|]. apply T4_nothing; auto. }
    destruct (c_drop_external_tcp c) eqn:Ex.
    { right. eexists _, _, _, _. split; [reflexivity|]. split; [exact I|]. split; [exact Fl|]. split; [exact Fg|]. split; [auto|]. destruct ob as [bid|].
      - destruct H as (b & Hb & H4 & E4 & _). apply T4_ext; auto. exists bid. split; [exact H4|]. unfold key4. rewrite Hb. exact E4.
      - apply T4_nothing; auto; tauto. }
    fold (too_many c t). destruct ob as [bid|].
    + destruct H as (b & Hb & H4 & E4 & Hh & _). cbn [hit] in Hh.
      assert (Hno : forall j s, sess t j = Some s -> s_bib s = bid -> s_dst4 s <> dst4).
      { intros j s Hs Es Ed. assert (Hj : In j (b_sess b)) by (apply (ibs _ _ I _ _ Hb); eauto). destruct Hh as (B1 & B2 & B3).
        rewrite <- (firstn_skipn n (b_sess b)) in Hj. apply in_app_or in Hj. destruct Hj as [Hj|Hj]; [apply B2 in Hj|apply B3 in Hj]; unfold keys in Hj; rewrite Hs, Ed in Hj; exact (lt_ta_irr _ Hj). }
      right. destruct (c_drop_by_addr c) eqn:Ed.
      * destruct (too_many c t) eqn:Et.
        -- eexists _, _, _, _. split; [reflexivity|]. split; [exact I|]. split; [exact Fl|]. split; [exact Fg|]. split; [auto|]. apply T4_full; auto.
        -- destruct (commit_add4_ok c TCP (set_pkts t (pkts t + 1)) bid b n dst6 dst4 V4_INIT (Some skb) T_SYN4 now (inv_pkts _ _ _ I) Hb Hh ltac:(discriminate)) as (t2 & en & Ec & I2 & Fp & W & Lk & Dy).
           rewrite Ec. cbn [bind fst snd]. eexists _, _, _, _. split; [reflexivity|]. split; [exact I2|]. split; [|split; [|split; [exact Dy|]]].
           ++ intros g'. destruct (W g') as (W1 & W2 & W3). cbn [sumz stolen]. change (wl g' (set_pkts t (pkts t + 1))) with (wl g' t) in W1. change (wq g' (set_pkts t (pkts t + 1))) with (wq g' t) in W3. lia.
           ++ unfold gauge. destruct (W one) as (W1 & W2 & W3). change (wl one (set_pkts t (pkts t + 1))) with (wl one t) in W1. change (wq one (set_pkts t (pkts t + 1))) with (wq one t) in W3.
              rewrite W1, W3, Fp. unfold one at 4. simp. lia.
           ++ destruct Lk as (sid & s & b' & A & L1 & L2 & L3 & L4). eapply (T4_stored _ _ _ _ _ _ _ _ _ _ bid b); try eassumption.
              exists sid, s, b'. split; [destruct A; simp; constructor; assumption|]. split; [exact L1|]. split; [exact L2|]. split; [exact L3|]. intros k. rewrite L4. destruct k; reflexivity.
      * destruct (commit_add4_ok c TCP t bid b n dst6 dst4 V4_INIT None T_TRANS now I Hb Hh ltac:(discriminate)) as (t2 & en & Ec & I2 & Fp & W & Lk & Dy).
        rewrite Ec. cbn [bind fst snd]. eexists _, _, _, _. split; [reflexivity|]. split; [exact I2|]. split; [|split; [|split; [exact Dy|]]].
        -- intros g'. destruct (W g') as (W1 & W2 & W3). cbn [sumz stolen]. lia.
        -- unfold gauge. destruct (W one) as (W1 & W2 & W3). rewrite W1, W3, Fp. lia.
        -- eapply T4_added; eassumption.
    + destruct H as (_ & _ & H). destruct (draw_alloc al') as [a2 al2'] eqn:Ea2. destruct (draw_in _ _ _ Ea2) as [Ia2 Ha2]. unfold pktqueue_add. cbn [q_dst6]. right. destruct a2; cbn [negb].
      2:{ eexists _, _, _, _. split; [reflexivity|]. split; [exact I|]. split; [exact Fl|]. split; [exact Fg|]. split; [auto|]. apply T4_nomem; [reflexivity|]. apply Ia. destruct Ha2 as [Ha2|Ha2]; [discriminate|exact Ha2]. }
      destruct (q_find (queue t) dst6) as [y|] eqn:Eq.
      { eexists _, _, _, _. split; [reflexivity|]. split; [exact I|]. split; [exact Fl|]. split; [exact Fg|]. split; [auto|]. apply T4_dup; auto. }
      destruct (too_many c t) eqn:Et.
      { eexists _, _, _, _. split; [reflexivity|]. split; [exact I|]. split; [exact Fl|]. split; [exact Fg|]. split; [auto|]. apply T4_full; auto. }
      eexists _, _, _, _. split; [reflexivity|]. split.
      { apply inv_queue; [exact I|]. rewrite map_app. cbn [map q_dst6]. apply nodup_snoc; [apply (iqn _ _ I)|apply q_find_none; exact Eq]. }
      set (t1 := set_pkts _ _). assert (W : forall g', wl g' t1 = wl g' t) by reflexivity. assert (Wq : forall g', wq g' t1 = wq g' t + g' skb) by (intros g'; unfold wq, t1; simp; rewrite sumz_app; cbn [sumz q_skb]; lia).
      split; [intros g'; rewrite W, Wq; cbn [sumz stolen]; lia|]. split; [unfold gauge; pose proof (Wq one) as X; change (one skb) with 1 in X; rewrite W, X; change (pkts t1) with (pkts t + 1); lia|]. split; [auto|].
      apply T4_queued; auto.
Qed.

(** ** bib_add_session *)
Definition inserted (t t2 : tb) (sid : Z) (time : Z) (k : timer) : Prop :=
  exists n, (n <= length (list_of t k))%nat /\
  (forall x j s', (n <= x)%nat -> nth_error (list_of t k) x = Some j -> sess t j = Some s' -> time <= s_time s') /\
  (forall j s', (0 < n)%nat -> nth_error (list_of t k) (pred n) = Some j -> sess t j = Some s' -> s_time s' < time) /\
  (forall k', list_of t2 k' = if same_timer k k' then insert_at n sid (list_of t k') else list_of t k').

Lemma bib_add_session_ok : forall c p t e now al, inv [] t ->
  let w := New (e_src6 e) (e_src4 e) (e_dst6 e) (e_dst4 e) (e_state e) (e_time e) in
  bib_add_session c p t e now al = Ok (Err ENOMEM, t, []) \/
  exists x t' evs f evs2, bib_add_session c p t e now al = Ok (x, t', f_ev f ++ evs2) /\ evs = f_ev f ++ evs2 /\ inv [] t' /\ acct [] t [] t' evs /\ (dyn t -> dyn t') /\ f_bdl f = [] /\
    ((exists y, x = Err y /\ found p t None w now f (Err y) /\ t' = f_t f /\ evs2 = []) \/
     (found p t None w now f OK /\
      ((exists sid s b, f_t f = t /\ f_sess f = Some sid /\ live [] t sid s /\ bibs t (s_bib s) = Some b /\ x = OK /\
          let r := collision_cb e (entry_of c p b s) in fate_done t t' sid s (fst r) (snd r) now) \/
       (f_sess f = None /\ e_timer e = T_BAD /\ x = Err EINVAL /\ t' = f_t f) \/
       (f_sess f = None /\ e_timer e <> T_BAD /\ x = OK /\ exists sid s b' m, couple f t' sid s b' (e_timer e) (e_time e) m /\ inserted (f_t f) t' sid (e_time e) (e_timer e))))).
Proof.
  intros c p t e now al I w. unfold bib_add_session. destruct (alloc_bib_session al) as [a al']. destruct a; [right|left; reflexivity..].
  destruct (find6_ok p t None w now al' I Logic.I) as (x & f & m & E & F). fold w. rewrite E. cbn [bind]. destruct x as [|y].
  - destruct (prep_old _ _ _ _ _ _ I F) as (I1 & A1 & D1).
    assert (Fb : f_bdl f = []).
    { inversion F as [bid b E1 E2|bid sid' Hp' E1 E2 E3 E4 U|P E1 E2|x P E1 St E2 E3|]; try assumption.
      destruct (p_bdl _ _ _ _ _ _ P) as [Hb|(bid & b & _ & _ & _ & Hb)]; [exact Hb|discriminate]. }
    destruct (f_sess f) as [sid|] eqn:Es.
    + assert (Ft : f_t f = t).
      { inversion F as [bid b E1 E2|bid sid' Hp' E1 E2 E3 E4 U|P E1 E2|x P E1 St E2 E3|]; try congruence. destruct U as [_ _ (t0 & n & b' & _ & _ & _ & _ & _ & _ & _ & _ & X & _)]. congruence. }
      destruct (found_sess _ _ _ _ _ _ _ I F Es) as (s & L & _). rewrite Ft in *. rewrite Fb in L.
      destruct (decide_ok [] c p t (collision_cb e) sid s false now (f_al f) I L) as (ok & t2 & evs & al2 & b & Ed & I2 & A2 & Hb & Hi & _ & Hf). rewrite Ed. cbn [bind].
      exists OK, t2, (f_ev f ++ evs), f, evs. split; [reflexivity|]. split; [reflexivity|]. split; [exact I2|]. split; [eapply acct_trans; [rewrite Fb in A1; exact A1|exact A2]|].
      split; [exact (dyn_fate _ _ _ _ _ _ _ _ I L Hf)|]. split; [exact Fb|]. right. split; [exact F|]. left. exists sid, s, b. auto 10.
    + destruct (match e_timer e with T_BAD => true | _ => false end) eqn:Ek.
      * destruct (e_timer e) eqn:Ek'; try discriminate. exists (Err EINVAL), (f_t f), (f_ev f ++ []), f, []. rewrite app_nil_r. split; [reflexivity|]. split; [reflexivity|]. rewrite Fb in *. split; [exact I1|]. split; [exact A1|].
        split; [exact D1|]. split; [reflexivity|]. right. split; [exact F|]. right. left. auto.
      * assert (Hk : e_timer e <> T_BAD) by (destruct (e_timer e); discriminate).
        assert (Hl : forall j, In j (list_of (f_t f) (e_timer e)) -> sess (f_t f) j <> None) by (intros j Hj; apply (ill _ _ I1) in Hj; destruct Hj as (z & -> & _); discriminate).
        destruct (before_newer_ok (f_t f) (e_time e) (list_of (f_t f) (e_timer e)) (length (list_of (f_t f) (e_timer e))) (le_n _) Hl) as (n & En & Hn & Ha & Hb).
        destruct (link_ok _ _ _ _ _ _ I F Es) as [(x & (_ & St & _) & _)|L]; [congruence|].
        destruct (L (e_timer e) (e_time e) n Hk) as (t2 & sid & t3 & s & b' & E1 & El & E3 & C & Ew).
        exists OK, t3, (f_ev f ++ []), f, []. rewrite app_nil_r. split; [destruct (e_timer e); try congruence; rewrite En; cbn [bind]; rewrite E1; cbn [bind]; rewrite El, E3; reflexivity|].
        split; [reflexivity|]. pose proof (c_inv _ _ _ _ _ _ _ _ C) as I3. pose proof (c_acct _ _ _ _ _ _ _ _ C) as A3. rewrite Fb in I3, A3, A1. split; [exact I3|]. split; [eapply acct_trans1; eassumption|].
        split; [intros Hd; eapply dyn_couple; [exact C|auto]|]. split; [exact Fb|]. right. split; [exact F|]. right. right. split; [exact Es|]. split; [exact Hk|]. split; [reflexivity|]. exists sid, s, b', n. split; [exact C|].
        exists n. split; [exact Hn|]. split; [|split; [exact Hb|apply (c_lists _ _ _ _ _ _ _ _ C)]]. intros x j s' Hx Hj Hs'. apply (Ha x j s'); auto. split; [exact Hx|]. apply nth_error_Some. congruence.
  - destruct (prep_err _ _ _ _ _ _ _ F) as (I1 & A1 & D1).
    assert (Fb : f_bdl f = []) by (inversion F as [| | | |y' P]; destruct (p_bdl _ _ _ _ _ _ P) as [Hb|(bid & b & _ & _ & _ & Hb)]; [exact Hb|discriminate]).
    exists (Err y), (f_t f), (f_ev f ++ []), f, []. rewrite app_nil_r. split; [reflexivity|]. split; [reflexivity|]. rewrite Fb in I1, A1. split; [exact I1|]. split; [exact A1|]. split; [exact D1|]. split; [exact Fb|].
    left. exists y. auto.
Qed.

(** ** Expiration *)
Lemma clean_loop_ok : forall c p cb timeout now (P : tb -> Prop),
  (forall t i s b t', inv [] t -> live [] t i s -> bibs t (s_bib s) = Some b -> P t -> inv [] t' -> fate_done t t' i s (fst (cb (entry_of c p b s))) (snd (cb (entry_of c p b s))) now -> P t') ->
  forall ids t al, inv [] t -> NoDup ids -> (forall j, In j ids -> sess t j <> None) -> P t ->
  exists t' evs al' pre post, clean_loop c p t cb timeout ids now al = Ok (t', evs, al') /\ inv [] t' /\ acct [] t [] t' evs /\ P t' /\
    ids = pre ++ post /\
    (forall j s, In j pre -> sess t j = Some s -> time_before now (u64 (s_time s + timeout)) = false) /\
    match post with [] => True | j :: _ => exists s, sess t j = Some s /\ time_before now (u64 (s_time s + timeout)) = true end /\
    (forall j, ~ In j pre -> sess t' j = sess t j) /\
    (forall j s b, In j pre -> sess t j = Some s -> bibs t (s_bib s) = Some b -> exists t1 t2, fate_done t1 t2 j s (fst (cb (entry_of c p b s))) (snd (cb (entry_of c p b s))) now /\ sess t' j = sess t2 j).
Proof.
  intros c p cb timeout now P HP. induction ids as [|i ids IH]; intros t al I Nd Hl Ht; cbn [clean_loop].
  - exists t, [], al, [], []. split; [reflexivity|]. split; [exact I|]. split; [apply acct_refl|]. split; [exact Ht|]. split; [reflexivity|]. split; [intros j s []|]. split; [exact Logic.I|]. split; [reflexivity|]. intros j s b [].
  - unfold gets. assert (Hi : sess t i <> None) by (apply Hl; left; reflexivity). destruct (sess t i) as [s|] eqn:Es; [|congruence]. cbn [bind].
    destruct (time_before now (u64 (s_time s + timeout))) eqn:Et.
    + exists t, [], al, [], (i :: ids). split; [reflexivity|]. split; [exact I|]. split; [apply acct_refl|]. split; [exact Ht|]. split; [reflexivity|]. split; [intros j s' []|]. split; [eauto|]. split; [reflexivity|]. intros j s' b [].
    + assert (L : live [] t i s) by (split; [exact Es|intros []]).
      destruct (decide_ok [] c p t cb i s true now al I L) as (ok & t1 & evs & al1 & b & Ed & I1 & A1 & Hb & Hi' & _ & Hf). rewrite Ed. cbn [bind].
      apply NoDup_cons_iff in Nd. destruct Nd as [Nd1 Nd2]. pose proof (fun j => fate_other _ _ _ _ _ _ _ j Hf) as Ho.
      destruct (IH t1 al1 I1 Nd2) as (t' & evs' & al' & pre & post & E & I' & A' & P' & Eids & H1 & H2 & H3 & H4).
      * intros j Hj. rewrite Ho by (intros ->; tauto). apply Hl. right. exact Hj.
      * exact (HP _ _ _ _ _ I L Hb Ht I1 Hf).
      * rewrite E. cbn [bind]. exists t', (evs ++ evs'), al', (i :: pre), post. split; [reflexivity|]. split; [exact I'|]. split; [eapply acct_trans; eassumption|]. split; [exact P'|].
        split; [rewrite Eids; reflexivity|].
        assert (Np : ~ In i pre) by (intros C; apply Nd1; rewrite Eids; apply in_or_app; left; exact C).
        split; [|split; [|split]].
        -- intros j s' [<-|Hj] Hs'; [assert (s' = s) by congruence; subst; exact Et|]. apply (H1 j); [exact Hj|]. rewrite Ho by (intros ->; tauto). exact Hs'.
        -- destruct post as [|j post]; [exact Logic.I|]. rewrite <- (Ho j); [exact H2|]. intros ->. apply Nd1. rewrite Eids. apply in_or_app. right. left. reflexivity.
        -- intros j Hj. rewrite H3 by (intros C; apply Hj; right; exact C). apply Ho. intros ->. apply Hj. left. reflexivity.
        -- intros j s' b' [<-|Hj] Hs' Hb'.
           ++ assert (s' = s) by congruence. subst s'. assert (b' = b) by congruence. subst b'. exists t, t1. split; [exact Hf|]. apply H3. exact Np.
           ++ assert (Nj : j <> i) by (intros ->; tauto). assert (Hs1 : sess t1 j = Some s') by (rewrite Ho by exact Nj; exact Hs').
              assert (Hb1 : exists b1, bibs t1 (s_bib s') = Some b1 /\ b_src6 b1 = b_src6 b' /\ b_src4 b1 = b_src4 b').
              { pose proof (isb _ _ I1 _ _ Hs1) as X. destruct (bibs t1 (s_bib s')) as [b1|] eqn:Eb1; [|congruence]. exists b1. split; [reflexivity|].
                assert (Hm : mapped t1 (s_bib s') (b_src6 b1) (b_src4 b1) (b_static b1)) by (split; [apply (in4 _ _ I1); split; [congruence|intros []]|eauto 10]).
                destruct (fate_maps _ _ _ _ _ _ _ _ Hf Hb) as [M _]. apply M in Hm. destruct Hm as (_ & b0 & Hb0 & X1 & X2 & _). assert (b0 = b') by congruence. subst b0. auto. }
              destruct Hb1 as (b1 & Hb1 & X1 & X2). destruct (H4 j s' b1 Hj Hs1 Hb1) as (t3 & t4 & G1 & G2). exists t3, t4.
              assert (Ee : entry_of c p b1 s' = entry_of c p b' s') by (unfold entry_of; rewrite X1, X2; reflexivity). rewrite Ee in G1. auto.
Qed.

Lemma pktqueue_clean_ok : forall c now q, exists r evs, pktqueue_clean c q now = (r, evs) /\ exists pre, q = pre ++ r /\ evs = map (fun n => EvIcmp (q_skb n)) pre /\
  (forall n, In n pre -> time_before now (u64 (q_time n + msecs_to_jiffies (c_hz c) (1000 * TCP_INCOMING_SYN))) = false) /\
  match r with [] => True | n :: _ => time_before now (u64 (q_time n + msecs_to_jiffies (c_hz c) (1000 * TCP_INCOMING_SYN))) = true end.
Proof.
  intros c now. induction q as [|n q IH]; cbn [pktqueue_clean].
  - exists [], []. split; [reflexivity|]. exists []. split; [reflexivity|]. split; [reflexivity|]. split; [intros n []|exact I].
  - destruct (time_before now _) eqn:E.
    + exists (n :: q), []. split; [reflexivity|]. exists []. split; [reflexivity|]. split; [reflexivity|]. split; [intros m []|exact E].
    + destruct IH as (r & evs & Er & pre & E1 & E2 & E3 & E4). rewrite Er. exists r, (EvIcmp (q_skb n) :: evs). split; [reflexivity|]. exists (n :: pre).
      split; [rewrite E1; reflexivity|]. split; [rewrite E2; reflexivity|]. split; [|exact E4]. intros m [<-|Hm]; [exact E|auto].
Qed.
Lemma nodup_suffix : forall (l r : list ta), NoDup (l ++ r) -> NoDup r.
Proof. induction l as [|x l IH]; intros r H; [exact H|]. cbn [app] in H. apply NoDup_cons_iff in H. apply IH. apply H. Qed.

(** One timer's list. *)
Definition swept (c : cfg) (p : proto) (t t' : tb) (k : timer) (now : Z) : Prop :=
  exists pre post, list_of t k = pre ++ post /\
    (forall j s, In j pre -> sess t j = Some s -> time_before now (u64 (s_time s + get_timeout c p k)) = false) /\
    match post with [] => True | j :: _ => exists s, sess t j = Some s /\ time_before now (u64 (s_time s + get_timeout c p k)) = true end /\
    (forall j, ~ In j pre -> sess t' j = sess t j) /\
    (forall j s b, In j pre -> sess t j = Some s -> bibs t (s_bib s) = Some b ->
       let r := expire_cb p k now (entry_of c p b s) in exists t1 t2, fate_done t1 t2 j s (fst r) (snd r) now /\ sess t' j = sess t2 j).

Lemma clean_ok : forall c p now k (P : tb -> Prop),
  (forall t i s b t', inv [] t -> live [] t i s -> bibs t (s_bib s) = Some b -> P t -> inv [] t' -> fate_done t t' i s (fst (expire_cb p k now (entry_of c p b s))) (snd (expire_cb p k now (entry_of c p b s))) now -> P t') ->
  forall t al, inv [] t -> P t -> exists t' evs al', clean c p t k now al = Ok (t', evs, al') /\ inv [] t' /\ acct [] t [] t' evs /\ P t' /\ swept c p t t' k now.
Proof.
  intros c p now k P HP t al I Ht. unfold clean.
  destruct (clean_loop_ok c p (expire_cb p k now) (get_timeout c p k) now P HP (list_of t k) t al I (iln _ _ I k)) as (t' & evs & al' & pre & post & E & I' & A & P' & H).
  - intros j Hj. apply (ill _ _ I) in Hj. destruct Hj as (s & -> & _). discriminate.
  - exact Ht.
  - exists t', evs, al'. split; [exact E|]. split; [exact I'|]. split; [exact A|]. split; [exact P'|]. exists pre, post. exact H.
Qed.

Lemma clean_table_ok : forall c p now (P : tb -> Prop),
  (forall k t i s b t', k <> T_BAD -> inv [] t -> live [] t i s -> bibs t (s_bib s) = Some b -> P t -> inv [] t' -> fate_done t t' i s (fst (expire_cb p k now (entry_of c p b s))) (snd (expire_cb p k now (entry_of c p b s))) now -> P t') ->
  (forall t q n, P t -> (exists pre, queue t = pre ++ q) -> P (set_pkts (set_queue t q) n)) ->
  forall t al, inv [] t -> P t -> exists t' evs, clean_table c p t now al = Ok (t', evs) /\ inv [] t' /\ acct [] t [] t' evs /\ P t' /\
  exists t1 t2 t3 pre, swept c p t t1 T_EST now /\ swept c p t1 t2 T_TRANS now /\ swept c p t2 t3 T_SYN4 now /\ inv [] t1 /\ inv [] t2 /\ inv [] t3 /\ P t1 /\ P t2 /\ P t3 /\
    bibs t' = bibs t3 /\ sess t' = sess t3 /\ tree4 t' = tree4 t3 /\ (forall k, list_of t' k = list_of t3 k) /\ queue t3 = pre ++ queue t' /\
    (forall n, In n pre -> time_before now (u64 (q_time n + msecs_to_jiffies (c_hz c) (1000 * TCP_INCOMING_SYN))) = false) /\
    match queue t' with [] => True | n :: _ => time_before now (u64 (q_time n + msecs_to_jiffies (c_hz c) (1000 * TCP_INCOMING_SYN))) = true end.
Proof.
  intros c p now P HP HQ t al I Ht. unfold clean_table.
  destruct (clean_ok c p now T_EST P (fun t i s b t' => HP T_EST t i s b t' ltac:(discriminate)) t al I Ht) as (t1 & e1 & al1 & E1 & I1 & A1 & P1 & S1). rewrite E1. cbn [bind].
  destruct (clean_ok c p now T_TRANS P (fun t i s b t' => HP T_TRANS t i s b t' ltac:(discriminate)) t1 al1 I1 P1) as (t2 & e2 & al2 & E2 & I2 & A2 & P2 & S2). rewrite E2. cbn [bind].
  destruct (clean_ok c p now T_SYN4 P (fun t i s b t' => HP T_SYN4 t i s b t' ltac:(discriminate)) t2 al2 I2 P2) as (t3 & e3 & al3 & E3 & I3 & A3 & P3 & S3). rewrite E3. cbn [bind].
  destruct (pktqueue_clean_ok c now (queue t3)) as (q & e4 & E4 & pre & Q1 & Q2 & Q3 & Q4). rewrite E4.
  eexists _, _. split; [reflexivity|]. split.
  { apply inv_queue; [exact I3|]. pose proof (iqn _ _ I3) as N. rewrite Q1, map_app in N. exact (nodup_suffix _ _ N). }
  split; [|split; [apply HQ; [exact P3|exists pre; exact Q1]|]].
  - eapply acct_trans; [exact A1|]. eapply acct_trans; [exact A2|]. eapply acct_trans; [exact A3|]. set (t4 := set_pkts _ _).
    assert (W : forall g, wl g t4 = wl g t3) by reflexivity. assert (Wd : forall g, wd g [] t4 = wd g [] t3) by reflexivity.
    assert (Wq : forall g, wq g t3 = wq g t4 + sumz (we g) e4).
    { intros g. unfold wq, t4. simp. rewrite Q1, Q2, sumz_app. assert (X : sumz (we g) (map (fun n => EvIcmp (q_skb n)) pre) = sumz (fun n => g (q_skb n)) pre) by (clear; induction pre as [|y l IH]; cbn [map sumz we]; [reflexivity|rewrite IH; reflexivity]). rewrite X. lia. }
    split; [intros g; rewrite W, Wd, Wq; lia|]. rewrite W, Wq. change (pkts t4) with (pkts t3 - Z.of_nat (length e4)).
    assert (X : sumz (we one) e4 = Z.of_nat (length e4)) by (rewrite Q2, map_length; clear; induction pre as [|y l IH]; cbn [map sumz we length]; [reflexivity|rewrite IH; unfold one; lia]). lia.
  - exists t1, t2, t3, pre. split; [exact S1|]. split; [exact S2|]. split; [exact S3|]. split; [exact I1|]. split; [exact I2|]. split; [exact I3|]. split; [exact P1|]. split; [exact P2|]. split; [exact P3|]. split; [reflexivity|]. split; [reflexivity|]. split; [reflexivity|]. split; [intros []; reflexivity|].
    simp. auto.
Qed.

(** ** Static entries *)
Lemma inv_static : forall D t i b st, inv D t -> bibs t i = Some b -> inv D (put_bib t i (TB (b_src6 b) (b_src4 b) st (b_sess b))).
Proof.
  intros D t i b st I Hb. set (b' := TB _ _ _ _). set (t' := put_bib t i b').
  assert (B : forall x, bibs t' x = if x =? i then Some b' else bibs t x) by reflexivity.
  assert (N : forall x, bibs t' x <> None <-> bibs t x <> None).
  { intros x. rewrite B. destruct (x =? i) eqn:E; [|reflexivity]. assert (x = i) by lia. subst. rewrite Hb. split; discriminate. }
  assert (S : forall x y, bibs t' x = Some y -> exists y0, bibs t x = Some y0 /\ b_sess y = b_sess y0).
  { intros x y H. rewrite B in H. destruct (x =? i) eqn:E; [|eauto]. assert (x = i) by lia. subst. injection H as <-. exists b. auto. }
  assert (K6 : forall x, key6 t' x = key6 t x).
  { intros x. unfold key6. rewrite B. destruct (x =? i) eqn:E; [|reflexivity]. assert (x = i) by lia. subst. rewrite Hb. reflexivity. }
  assert (K4 : forall x, key4 t' x = key4 t x).
  { intros x. unfold key4. rewrite B. destruct (x =? i) eqn:E; [|reflexivity]. assert (x = i) by lia. subst. rewrite Hb. reflexivity. }
  assert (L : forall k, list_of t' k = list_of t k) by (intros []; reflexivity).
  destruct I as [J1 J2 J3 J4 J5 J6 J7 J8 J9 J10 J11 J12 J13 J14 J15 J16]. constructor; try assumption.
  - eapply srt_ext; [|exact J1]. intros. symmetry. apply K6.
  - eapply srt_ext; [|exact J2]. intros. symmetry. apply K4.
  - intros x. rewrite N. apply J3.
  - intros x. rewrite N. apply J4.
  - intros x Hx. apply N. apply J6. exact Hx.
  - intros x y H. destruct (S _ _ H) as (y0 & H0 & ->). apply (J7 _ _ H0).
  - intros x y H. destruct (S _ _ H) as (y0 & H0 & ->). apply (J8 _ _ H0).
  - intros j s H. apply N. apply (J9 _ _ H).
  - intros x H. apply N in H. apply (J14 _ H).
Qed.

Inductive static_case (p : proto) (t : tb) (s6 s4 : ta) (t' : tb) (evs : list ev) : rc -> Prop :=
| St_nomem : t' = t -> evs = [] -> static_case p t s6 s4 t' evs (Err ENOMEM)
| St_same : forall i b, In i (tree4 t) -> bibs t i = Some b -> b_src6 b = s6 -> b_src4 b = s4 -> t' = put_bib t i (TB s6 s4 true (b_sess b)) -> evs = [] ->
    static_case p t s6 s4 t' evs OK
| St_clash : t' = t -> evs = [] -> (exists i b, In i (tree4 t) /\ bibs t i = Some b /\ (b_src6 b = s6 \/ b_src4 b = s4) /\ ~ (b_src6 b = s6 /\ b_src4 b = s4)) ->
    static_case p t s6 s4 t' evs (Err EEXIST)
| St_new : forall i, bibs t i = None -> bibs t' = upd (bibs t) i (Some (TB s6 s4 true [])) -> sess t' = sess t -> (forall x, In x (tree4 t') <-> x = i \/ In x (tree4 t)) ->
    (forall k, list_of t' k = list_of t k) -> fresh t <= fresh t' -> pkts t' = pkts t ->
    ~ (exists x, In x (tree4 t) /\ key6 t x = s6) -> ~ taken t s4 ->
    (queue t' = match p with TCP => filter (fun n => negb (ta_eqb (q_src4 n) s4)) (queue t) | _ => queue t end) ->
    evs = match p with TCP => map (fun n => EvKill (q_skb n)) (filter (fun n => ta_eqb (q_src4 n) s4) (queue t)) | _ => [] end ->
    static_case p t s6 s4 t' evs OK.

Lemma filter_sum : forall g (f : pnode -> bool) q, sumz (fun n => g (q_skb n)) q =
  sumz (fun n => g (q_skb n)) (filter (fun n => negb (f n)) q) + sumz (we g) (map (fun n => EvKill (q_skb n)) (filter f q)).
Proof. intros g f. induction q as [|n q IH]; [reflexivity|]. cbn [sumz filter]. rewrite IH. destruct (f n); cbn [negb sumz map we]; lia. Qed.

Lemma sum_kill : forall g (l : list pnode), sumz (we g) (map (fun n => EvKill (q_skb n)) l) = sumz (fun n => g (q_skb n)) l.
Proof. intros g. induction l as [|n l IH]; [reflexivity|]. cbn [map sumz we]. rewrite IH. reflexivity. Qed.
Lemma sum_one : forall (l : list pnode), sumz (fun n => one (q_skb n)) l = Z.of_nat (length l).
Proof. induction l as [|n l IH]; [reflexivity|]. cbn [sumz length]. rewrite IH. unfold one. lia. Qed.

Lemma bib_add_static_ok : forall p t s6 s4 al, inv [] t -> exists x t' evs, bib_add_static p t s6 s4 al = Ok (x, t', evs) /\ inv [] t' /\ (dyn t -> dyn t') /\ flow [] t t' evs /\
  pkts t - wl one t - wq one t + Z.of_nat (length evs) = pkts t' - wl one t' - wq one t' /\ static_case p t s6 s4 t' evs x.
Proof.
  intros p t s6 s4 al I. unfold bib_add_static. destruct (draw_alloc al) as [a al']. destruct (acct_flow _ _ _ (acct_refl [] t)) as [Fl Fg]. destruct a; cbn [negb].
  2:{ eexists _, _, _. split; [reflexivity|]. split; [exact I|]. split; [auto|]. split; [exact Fl|]. split; [cbn [length]; lia|]. apply St_nomem; reflexivity. }
  destruct (find6 _ _ s6 I) as (o & n6 & E6 & H6). rewrite E6. cbn [bind]. destruct o as [i|]; cbn [hit] in H6.
  - destruct H6 as [H6 K6]. apply nth_error_In in H6. apply (in6 _ _ I) in H6. pose proof (proj2 (in4 _ _ I i) H6) as H4. unfold getb. destruct (bibs t i) as [b|] eqn:Hb; [|tauto]. cbn [bind].
    unfold key6 in K6. rewrite Hb in K6. destruct (ta_eqb s4 (b_src4 b)) eqn:E4.
    + apply ta_eqb_eq in E4. eexists _, _, _. split; [reflexivity|]. set (t' := put_bib _ _ _). split; [apply inv_static; assumption|]. split.
      { intros Hd x y Hx Hy. unfold t' in Hy. simp. apply upd_cases in Hy. destruct Hy as [[-> Hy]|[N Hy]]; [injection Hy as <-; simp; discriminate|]. exact (Hd x y Hx Hy). }
      split; [exact Fl|]. split; [cbn [length]; change (pkts t') with (pkts t); change (wl one t') with (wl one t); change (wq one t') with (wq one t); lia|]. eapply St_same; try eassumption; [symmetry; exact E4| |reflexivity].
      unfold t'. rewrite K6, E4. reflexivity.
    + eexists _, _, _. split; [reflexivity|]. split; [exact I|]. split; [auto|]. split; [exact Fl|]. split; [cbn [length]; lia|]. apply St_clash; try reflexivity. exists i, b. split; [exact H4|]. split; [exact Hb|]. split; [auto|].
      intros [_ C]. rewrite C in E4. rewrite (proj2 (ta_eqb_eq _ _) eq_refl) in E4. discriminate.
  - destruct (find4 _ _ s4 I) as (o & n4 & E4 & H4). rewrite E4. cbn [bind]. destruct o as [i|]; cbn [hit] in H4.
    + destruct H4 as [H4 K4]. apply nth_error_In in H4. pose proof (proj1 (in4 _ _ I i) H4) as H4'. destruct (bibs t i) as [b|] eqn:Hb; [|tauto].
      eexists _, _, _. split; [reflexivity|]. split; [exact I|]. split; [auto|]. split; [exact Fl|]. split; [cbn [length]; lia|]. apply St_clash; try reflexivity. exists i, b. split; [exact H4|]. split; [exact Hb|].
      unfold key4 in K4. rewrite Hb in K4. split; [auto|]. intros [C _]. apply (belongs_free6 _ _ _ _ I H6). exists i. split; [exact H4|]. unfold key6. rewrite Hb. exact C.
    + destruct (inv_fresh_none _ _ (fresh t) I ltac:(lia)) as [F _].
      set (t1 := commit_bib (set_fresh t (fresh t + 1)) (fresh t) (TB s6 s4 true []) n6 n4).
      assert (I1 : inv [] t1).
      { apply inv_new_bib; [apply inv_fresh; [exact I|lia]|exact F|simp; lia|reflexivity|exact H6|exact H4]. }
      assert (D1 : dyn t -> dyn t1).
      { intros Hd x y Hx Hy. unfold t1, commit_bib in Hx, Hy. simp. apply insert_in in Hx. apply upd_cases in Hy. destruct Hy as [[-> Hy]|[N Hy]]; [injection Hy as <-; simp; discriminate|]. destruct Hx as [Hx|Hx]; [congruence|]. exact (Hd x y Hx Hy). }
      assert (Case : forall q evs, q = match p with TCP => filter (fun n => negb (ta_eqb (q_src4 n) s4)) (queue t) | _ => queue t end ->
        evs = match p with TCP => map (fun n => EvKill (q_skb n)) (filter (fun n => ta_eqb (q_src4 n) s4) (queue t)) | _ => [] end ->
        static_case p t s6 s4 (set_queue t1 q) evs OK).
      { intros q evs Eq Ee. apply (St_new _ _ _ _ _ _ (fresh t)); try assumption; try reflexivity.
        - intros x. unfold t1, commit_bib. simp. apply insert_in.
        - unfold t1, commit_bib. simp. lia.
        - exact (belongs_free6 _ _ _ _ I H6).
        - exact (belongs_free _ _ _ H4). }
      assert (G : forall q evs, (forall g, wq g t = sumz (fun n => g (q_skb n)) q + sumz (we g) evs) -> sumz (we one) evs = Z.of_nat (length evs) ->
        flow [] t (set_queue t1 q) evs /\ pkts t - wl one t - wq one t + Z.of_nat (length evs) = pkts (set_queue t1 q) - wl one (set_queue t1 q) - wq one (set_queue t1 q)).
      { intros q evs Hq Ho. assert (W : forall g, wl g (set_queue t1 q) = wl g t) by reflexivity. assert (Wq : forall g, wq g (set_queue t1 q) = sumz (fun n => g (q_skb n)) q) by reflexivity.
        split; [intros g; rewrite W, Wq, Hq; cbn [sumz]; lia|]. rewrite W, Wq, Hq, Ho. change (pkts (set_queue t1 q)) with (pkts t). lia. }
      assert (O : p = TCP \/ p <> TCP) by (destruct p; (left; reflexivity) || (right; discriminate)). destruct O as [->|O].
      * unfold pktqueue_rm. change (queue t1) with (queue t). eexists _, _, _. split; [reflexivity|]. split; [apply inv_queue'; [exact I1|apply filter_nodup_map; apply (iqn _ _ I)]|]. split; [exact D1|].
        destruct (G (filter (fun x => negb (ta_eqb (q_src4 x) s4)) (queue t)) (map (fun x => EvKill (q_skb x)) (filter (fun x => ta_eqb (q_src4 x) s4) (queue t)))) as [G1 G2].
        { intros g. unfold wq. apply filter_sum. } { rewrite sum_kill, map_length. apply sum_one. }
        split; [exact G1|]. split; [exact G2|]. apply Case; reflexivity.
      * destruct (G (queue t) []) as [G1 G2]; [intros g; cbn [sumz]; unfold wq; lia|reflexivity|]. assert (Et : set_queue t1 (queue t) = t1) by reflexivity. rewrite Et in *.
        exists OK, t1, []. split; [destruct p; [congruence|reflexivity..]|]. split; [exact I1|]. split; [exact D1|]. split; [exact G1|]. split; [exact G2|]. rewrite <- Et. apply Case; destruct p; congruence.
Qed.

(** ** Removals *)
(** The entries [l] go away, with their sessions; the rest stays. *)
Record removed (t t' : tb) (l : list Z) : Prop := Removed {
  r_bibs : forall i, bibs t' i = if mem_id i l then None else bibs t i;
  r_sess : forall j s, sess t' j = Some s <-> sess t j = Some s /\ ~ In (s_bib s) l;
  r_t4 : tree4 t' = drop_ids l (tree4 t);
  r_lists : exists dead, (forall j, In j dead <-> exists s, sess t j = Some s /\ In (s_bib s) l) /\ forall k, list_of t' k = drop_ids dead (list_of t k);
  r_q : queue t' = queue t;
  r_f : fresh t' = fresh t }.

Lemma removed_dyn : forall t t' l, removed t t' l -> dyn t -> dyn t'.
Proof. intros t t' l R H x b Hx Hb. rewrite (r_t4 _ _ _ R) in Hx. apply drop_in in Hx. rewrite (r_bibs _ _ _ R) in Hb. destruct (mem_id x l); [discriminate|]. apply (H x b); [apply Hx|exact Hb]. Qed.

Lemma drop_drop : forall a b l, drop_ids a (drop_ids b l) = drop_ids (b ++ a) l.
Proof.
  intros a b l. unfold drop_ids. induction l as [|x l IH]; [reflexivity|]. cbn [filter].
  assert (X : mem_id x (b ++ a) = mem_id x b || mem_id x a) by apply existsb_app. rewrite X.
  destruct (mem_id x b); cbn [negb orb filter]; [exact IH|]. destruct (mem_id x a); cbn [negb]; [exact IH|f_equal; exact IH].
Qed.

Lemma flush_loop_ok : forall l t D, inv D t -> NoDup l -> (forall i, In i l -> bibs t i <> None /\ ~ In i D) -> exists t', flush_loop t l D = Ok (t', rev l ++ D) /\
  inv (rev l ++ D) t' /\ acct D t (rev l ++ D) t' [] /\ bibs t' = bibs t /\ sess t' = sess t /\ tree4 t' = drop_ids l (tree4 t) /\ queue t' = queue t /\ fresh t' = fresh t /\
  exists dead, (forall j, In j dead <-> exists s, sess t j = Some s /\ In (s_bib s) l) /\ forall k, list_of t' k = drop_ids dead (list_of t k).
Proof.
  induction l as [|i l IH]; intros t D I Nd H; cbn [flush_loop rev].
  - exists t. split; [reflexivity|]. split; [exact I|]. split; [apply acct_refl|]. split; [reflexivity|]. split; [reflexivity|]. split; [rewrite drop_nil; reflexivity|]. split; [reflexivity|]. split; [reflexivity|].
    exists []. split; [intros j; split; [intros []|intros (s & _ & [])]|]. intros k. rewrite drop_nil. reflexivity.
  - apply NoDup_cons_iff in Nd. destruct Nd as [Nd1 Nd2]. destruct (H i (or_introl eq_refl)) as [Hb HD]. destruct (bibs t i) as [b|] eqn:Eb; [|congruence].
    destruct (detach_ok D t i b I Eb HD) as (t1 & E1 & I1 & A1 & F1 & F2 & F3 & F4 & F5 & F6 & F7). rewrite E1. cbn [bind].
    destruct (IH t1 (i :: D) I1 Nd2) as (t' & E & I' & A' & G1 & G2 & G3 & G4 & G5 & dead & G6 & G7).
    { intros x Hx. rewrite F1. destruct (H x (or_intror Hx)) as [X1 X2]. split; [exact X1|]. intros [->|C]; tauto. }
    exists t'. rewrite <- app_assoc. cbn [app]. split; [exact E|]. split; [exact I'|]. split; [eapply acct_trans0; eassumption|]. split; [congruence|]. split; [congruence|].
    split; [rewrite G3, F4; apply drop_cons|]. split; [congruence|]. split; [congruence|].
    exists (b_sess b ++ dead). split.
    + intros j. rewrite in_app_iff, G6, F2. split.
      * intros [Hj|(s & Hs & Hi)]; [|exists s; split; [exact Hs|right; exact Hi]]. apply (ibs _ _ I _ _ Eb) in Hj. destruct Hj as (s & Hs & Es). exists s. split; [exact Hs|left; auto].
      * intros (s & Hs & [Es|Hi]); [left; apply (ibs _ _ I _ _ Eb); eauto|right; eauto].
    + intros k. rewrite G7, F5. apply drop_drop.
Qed.

Lemma mem_perm : forall i l m, (forall x, In x l <-> In x m) -> mem_id i l = mem_id i m.
Proof.
  intros i l m H. destruct (mem_id i l) eqn:E1, (mem_id i m) eqn:E2; try reflexivity.
  - apply mem_in in E1. apply H in E1. apply mem_in in E1. congruence.
  - apply mem_in in E2. apply H in E2. apply mem_in in E2. congruence.
Qed.

Lemma remove_all_ok : forall t l, inv [] t -> NoDup l -> (forall i, In i l -> bibs t i <> None) -> exists t1 t' evs, flush_loop t l [] = Ok (t1, rev l) /\ commit_delete_list t1 (rev l) = Ok (t', evs) /\
  inv [] t' /\ acct [] t [] t' evs /\ removed t t' l.
Proof.
  intros t l I Nd H. destruct (flush_loop_ok l t [] I Nd) as (t1 & E & I1 & A1 & G1 & G2 & G3 & G4 & G5 & dead & G6 & G7); [intros i Hi; split; [apply H; exact Hi|intros []]|]. rewrite app_nil_r in *.
  destruct (delete_list_ok _ _ I1) as (t' & evs & E' & I' & A' & Fb & Fs & T6 & T4 & L & Fq & Ff). exists t1, t', evs. split; [exact E|]. split; [exact E'|]. split; [exact I'|]. split; [eapply acct_trans0; eassumption|].
  assert (P : forall x, In x (rev l) <-> In x l) by (intros; symmetry; apply in_rev). constructor.
  - intros i. rewrite Fb, G1, (mem_perm i _ _ P). reflexivity.
  - intros j s. rewrite Fs, G2, P. reflexivity.
  - congruence.
  - exists dead. split; [exact G6|]. intros k. rewrite L. apply G7.
  - congruence.
  - congruence.
Qed.

Lemma flush_table_ok : forall t, inv [] t -> exists t' evs, flush_table t = Ok (t', evs) /\ inv [] t' /\ acct [] t [] t' evs /\ removed t t' (tree4 t).
Proof.
  intros t I. destruct (remove_all_ok t (tree4 t) I) as (t1 & t' & evs & E & E' & H); [eapply srt_nodup; apply (i4 _ _ I)|intros i Hi; apply (in4 _ _ I) in Hi; apply Hi|].
  unfold flush_table. rewrite E. cbn [bind fst snd]. eauto.
Qed.

(** The walk of bib_rm_range stops at the first address outside the prefix. *)
Fixpoint upto (f : Z -> bool) (l : list Z) : list Z := match l with [] => [] | i :: l' => if f i then i :: upto f l' else [] end.
Definition in_pf (t : tb) (pf : prefix4) (i : Z) : bool := prefix4_contains pf (fst (key4 t i)).
Definition in_ports (t : tb) (lo hi : Z) (i : Z) : bool := port_range_contains lo hi (snd (key4 t i)).

Lemma rm_range_loop_eq : forall pf lo hi l t D, inv D t -> NoDup l -> (forall i, In i l -> bibs t i <> None /\ ~ In i D) ->
  rm_range_loop t pf lo hi l D = flush_loop t (filter (in_ports t lo hi) (upto (in_pf t pf) l)) D.
Proof.
  intros pf lo hi. induction l as [|i l IH]; intros t D I Nd H; cbn [rm_range_loop upto filter flush_loop]; [reflexivity|].
  apply NoDup_cons_iff in Nd. destruct Nd as [Nd1 Nd2]. destruct (H i (or_introl eq_refl)) as [Hb HD]. unfold getb. destruct (bibs t i) as [b|] eqn:Eb; [|congruence]. cbn [bind].
  assert (Ek : key4 t i = b_src4 b) by (unfold key4; rewrite Eb; reflexivity). unfold in_pf at 1. rewrite Ek. destruct (prefix4_contains pf (fst (b_src4 b))); cbn [negb]; [|reflexivity].
  cbn [filter]. unfold in_ports at 1. rewrite Ek. destruct (port_range_contains lo hi (snd (b_src4 b))).
  - cbn [flush_loop]. destruct (detach_ok D t i b I Eb HD) as (t1 & E1 & I1 & A1 & F1 & F2 & F3 & F4 & F5 & F6 & F7). rewrite E1. cbn [bind].
    rewrite IH; [|exact I1|exact Nd2|].
    + assert (X : forall x, key4 t1 x = key4 t x) by (intros x; unfold key4; rewrite F1; reflexivity).
      assert (X1 : upto (in_pf t1 pf) l = upto (in_pf t pf) l) by (clear - X; induction l as [|y l IH]; [reflexivity|]; cbn [upto]; unfold in_pf at 1 3; rewrite X, IH; reflexivity). rewrite X1.
      assert (X2 : forall m, filter (in_ports t1 lo hi) m = filter (in_ports t lo hi) m) by (intros m; apply filter_ext; intros y; unfold in_ports; rewrite X; reflexivity). rewrite X2. reflexivity.
    + intros x Hx. rewrite F1. destruct (H x (or_intror Hx)) as [X1 X2]. split; [exact X1|]. intros [->|C]; tauto.
  - apply IH; [exact I|exact Nd2|]. intros x Hx. apply H. right. exact Hx.
Qed.

Lemma upto_in : forall f l i, In i (upto f l) -> In i l.
Proof. induction l as [|x l IH]; intros i H; cbn [upto] in H; [destruct H|]. destruct (f x); [|destruct H]. destruct H as [<-|H]; [left; reflexivity|right; auto]. Qed.
Lemma upto_nodup : forall f l, NoDup l -> NoDup (upto f l).
Proof.
  induction l as [|x l IH]; intros H; cbn [upto]; [constructor|]. apply NoDup_cons_iff in H. destruct (f x); [|constructor]. constructor; [|apply IH; apply H]. intros C. apply upto_in in C. tauto.
Qed.
Lemma skipn_nodup : forall n (l : list Z), NoDup l -> NoDup (skipn n l).
Proof. induction n as [|n IH]; intros l H; [exact H|]. destruct l as [|x l]; [exact H|]. cbn [skipn]. apply NoDup_cons_iff in H. apply IH. apply H. Qed.

(** Where a walk over tree4 begins. *)
Lemma start_ok : forall D t k incl, inv D t -> exists n, find_starting_point t (Some k) incl = Ok (skipn n (tree4 t)) /\
  (forall i, In i (firstn n (tree4 t)) -> lt_ta (key4 t i) k \/ (incl = false /\ key4 t i = k)) /\
  (forall i, In i (skipn n (tree4 t)) -> lt_ta k (key4 t i) \/ (incl = true /\ key4 t i = k)).
Proof.
  intros D t k incl I. unfold find_starting_point. destruct (find4 _ _ k I) as (o & n & E & H). rewrite E. cbn [bind]. destruct o as [i|]; cbn [hit] in H.
  - destruct H as [Hn Hk]. destruct (srt_before _ _ _ _ (i4 _ _ I) Hn) as [B1 B2]. destruct incl.
    + exists n. split; [reflexivity|]. split; [intros x Hx; left; rewrite <- Hk; apply B1; exact Hx|]. intros x Hx. rewrite (skipn_nth _ _ _ Hn) in Hx. destruct Hx as [<-|Hx]; [right; auto|left; rewrite <- Hk; apply B2; exact Hx].
    + exists (S n). split; [reflexivity|]. split; [|intros x Hx; left; rewrite <- Hk; apply B2; exact Hx]. intros x Hx. rewrite (firstn_S_nth _ _ _ Hn) in Hx. apply in_app_or in Hx. destruct Hx as [Hx|[<-|[]]]; [left; rewrite <- Hk; apply B1; exact Hx|right; auto].
  - destruct H as (B1 & B2 & B3). exists n. split; [reflexivity|]. split; [intros x Hx; left; apply B2; exact Hx|intros x Hx; left; apply B3; exact Hx].
Qed.

Lemma bib_rm_range_ok : forall t pf lo hi, inv [] t -> exists t' evs n l, bib_rm_range t pf lo hi = Ok (t', evs) /\ inv [] t' /\ acct [] t [] t' evs /\ removed t t' l /\
  l = filter (in_ports t lo hi) (upto (in_pf t pf) (skipn n (tree4 t))) /\
  (forall i, In i (firstn n (tree4 t)) -> lt_ta (key4 t i) (p4_addr pf, lo)) /\
  (forall i, In i (skipn n (tree4 t)) -> lt_ta (p4_addr pf, lo) (key4 t i) \/ key4 t i = (p4_addr pf, lo)).
Proof.
  intros t pf lo hi I. unfold bib_rm_range. destruct (start_ok _ _ (p4_addr pf, lo) true I) as (n & E & B1 & B2).
  match goal with |- context [find_starting_point t ?k true] => change k with (@Some ta (p4_addr pf, lo)) end. rewrite E. cbn [bind].
  assert (Nd : NoDup (skipn n (tree4 t))) by (apply skipn_nodup; eapply srt_nodup; apply (i4 _ _ I)).
  assert (Hin : forall i, In i (skipn n (tree4 t)) -> bibs t i <> None).
  { intros i Hi. apply (in4 _ _ I). rewrite <- (firstn_skipn n (tree4 t)). apply in_or_app. right. exact Hi. }
  rewrite rm_range_loop_eq; [|exact I|exact Nd|intros i Hi; split; [apply Hin; exact Hi|intros []]].
  set (l := filter (in_ports t lo hi) (upto (in_pf t pf) (skipn n (tree4 t)))).
  destruct (remove_all_ok t l I) as (t1 & t' & evs & E1 & E2 & H1 & H2 & H3).
  { apply NoDup_filter. apply upto_nodup. exact Nd. }
  { intros i Hi. apply filter_In in Hi. apply Hin. eapply upto_in. apply Hi. }
  rewrite E1. cbn [bind fst snd]. exists t', evs, n, l. split; [exact E2|]. split; [exact H1|]. split; [exact H2|]. split; [exact H3|]. split; [reflexivity|]. split.
  - intros i Hi. destruct (B1 i Hi) as [X|[X _]]; [exact X|discriminate].
  - intros i Hi. destruct (B2 i Hi) as [X|[_ X]]; auto.
Qed.

Lemma bib_rm_ok : forall t s6 s4, inv [] t -> exists x t' evs, bib_rm t s6 s4 = Ok (x, t', evs) /\ inv [] t' /\ acct [] t [] t' evs /\
  ((x = OK /\ exists i b, In i (tree4 t) /\ bibs t i = Some b /\ b_src6 b = s6 /\ b_src4 b = s4 /\ removed t t' [i]) \/
   (x = Err ESRCH /\ t' = t /\ ~ exists i b, In i (tree4 t) /\ bibs t i = Some b /\ b_src6 b = s6 /\ b_src4 b = s4)).
Proof.
  intros t s6 s4 I. unfold bib_rm. destruct (find6 _ _ s6 I) as (o & n6 & E6 & H6). rewrite E6. cbn [bind fst]. destruct o as [i|]; cbn [hit] in H6.
  - destruct H6 as [H6 K6]. apply nth_error_In in H6. pose proof H6 as H6i. apply (in6 _ _ I) in H6. pose proof (proj2 (in4 _ _ I i) H6) as H4. unfold getb. destruct (bibs t i) as [b|] eqn:Hb; [|tauto]. cbn [bind].
    assert (K6' : b_src6 b = s6) by (unfold key6 in K6; rewrite Hb in K6; exact K6). destruct (ta_eqb s4 (b_src4 b)) eqn:E4.
    + apply ta_eqb_eq in E4. destruct (remove_all_ok t [i] I) as (t1 & t' & evs & E1 & E2 & H1 & H2 & H3).
      { constructor; [intros []|constructor]. } { intros x [<-|[]]. congruence. }
      cbn [flush_loop rev app] in E1, E2. destruct (detach_bib t i) as [t0| |]; cbn [bind] in *; [|discriminate..]. injection E1 as ->. cbn [commit_delete_list] in E2.
      destruct (release_bib_entry t1 i) as [[t2 ev]| |]; cbn [bind fst snd] in *; [|discriminate..]. injection E2 as <- <-. rewrite app_nil_r in H2.
      eexists _, _, _. split; [reflexivity|]. split; [exact H1|]. split; [exact H2|]. left. split; [reflexivity|]. exists i, b. auto.
    + eexists _, _, _. split; [reflexivity|]. split; [exact I|]. split; [apply acct_refl|]. right. split; [reflexivity|]. split; [reflexivity|].
      intros (i' & b' & X1 & X2 & X3 & X4). assert (i' = i).
      { apply (srt_inj _ _ i' i (i6 _ _ I)); [apply (in6 _ _ I); apply (in4 _ _ I); exact X1|exact H6i|]. unfold key6. rewrite X2, Hb, X3. auto. }
      subst i'. assert (b' = b) by congruence. subst b'. rewrite X4 in E4. rewrite (proj2 (ta_eqb_eq _ _) eq_refl) in E4. discriminate.
  - eexists _, _, _. split; [reflexivity|]. split; [exact I|]. split; [apply acct_refl|]. right. split; [reflexivity|]. split; [reflexivity|].
    intros (i & b & X1 & X2 & X3 & X4). apply (belongs_free6 _ _ _ _ I H6). exists i. split; [exact X1|]. unfold key6. rewrite X2. exact X3.
Qed.
