(** Theorems about the tables of a machine that sessions of another reach. *)
Require Import Verif.Base Verif.Addr_Model Verif.Rtrie_Model Verif.Pool4_Model Verif.Fsm_Model Verif.Bib_Model
  Verif.Bib_Inv Verif.Bib_Steps Verif.Bib_Fate Verif.Bib_Find Verif.Bib_Add Verif.Bib_Ops Verif.Bib_Hist Verif.Bib_Spec Verif.Bib_Properties
  Verif.Nat64_Model Verif.Nat64_Spec Verif.Joold_Model Verif.Joold_Spec Verif.Joold_Codec Verif.Glob_Model Verif.Inst_Model Verif.Nla_Model Verif.Req_Model
  Verif.Sync_Model Verif.Sync_Spec Verif.Sync_Properties.
Local Ltac Zify.zify_post_hook ::= idtac.

(** The session [e] is in the table, as it is: addresses, state, timer and time. *)
Definition holds (t : tb) (e : sentry) : Prop :=
  exists j s b, sess t j = Some s /\ bibs t (s_bib s) = Some b /\ b_src6 b = e_src6 e /\ b_src4 b = e_src4 e /\
    s_dst6 s = e_dst6 e /\ s_dst4 s = e_dst4 e /\ s_state s = e_state e /\ s_exp s = e_timer e /\ s_time s = e_time e.

(** What adding a session that does not collide does *)
Lemma sync_exact : forall c p t e now, reachable p t -> e_timer e <> T_BAD ->
  (forall s4 st, has t (e_src6 e) s4 st -> s4 = e_src4 e) -> (forall s6 st, has t s6 (e_src4 e) st -> s6 = e_src6 e) ->
  ~ (exists s6 d6 , has_session t s6 (e_src4 e) d6 (e_dst4 e)) -> (p = ICMP -> snd (e_dst4 e) = snd (e_src4 e)) ->
  exists t' evs i s b, bib_add_session c p t e now [] = Ok (OK, t', evs) /\ sess t i = None /\
    s = TS (e_dst6 e) (e_dst4 e) (e_state e) (s_bib s) (e_time e) (e_timer e) None /\ b_src6 b = e_src6 e /\ b_src4 b = e_src4 e /\
    (forall j, sess t' j = if j =? i then Some s else sess t j) /\ (forall x, bibs t' x = if x =? s_bib s then Some b else bibs t x) /\
    (forall b0, bibs t (s_bib s) = Some b0 -> b_src6 b0 = b_src6 b /\ b_src4 b0 = b_src4 b /\ b_static b0 = b_static b).
Proof.
  intros c p t e now R Hk H6 H4 Hs Hicmp. destruct (reach_inv p t R) as [I _].
  set (w := New (e_src6 e) (e_src4 e) (e_dst6 e) (e_dst4 e) (e_state e) (e_time e)).
  destruct (bib_add_session_ok c p t e now [] I) as [E|(x & t' & evs & f & evs2 & E & _ & I' & _ & _ & _ & X)].
  { exfalso. revert E. unfold bib_add_session. cbn [alloc_bib_session draw_alloc]. fold w. destruct (find6_ok p t None w now [] I Logic.I) as (y & f & m & -> & F). cbn [bind].
    destruct y as [|y]; [|inversion F as [| | | |? ? ? Ey]; subst y; intros E; discriminate].
    destruct (f_sess f) as [sid|].
    - destruct (decide_fate _ _ _ _ _ _ _ _) as [[[[? ?] ?] ?]| |]; discriminate.
    - destruct (e_timer e); try discriminate; (destruct (before_newer _ _ _ _); cbn [bind]; try discriminate; destruct (link_new _ _ _ _) as [[? ?]| |]; cbn [bind]; discriminate). }
  fold w in X.
  assert (Free : forall i b, bibs t i = Some b -> b_src4 b = e_src4 e -> b_src6 b = e_src6 e) by (intros i b Hb E4; apply (H4 (b_src6 b) (b_static b)); exists i, b; auto).
  destruct X as [(y & -> & F & _ & _)|[F X]].
  { exfalso. inversion F as [| | | |y' P Ex Ey Hn]. destruct P. cbn [exhausted] in Ex. destruct Ex as (i & Hi & Ek). destruct p_bdl as [B|(bid & b & _ & _ & _ & B)]; [|discriminate].
    rewrite B in p_t4. rewrite drop_nil in p_t4. unfold key4 in Ek. rewrite p_bibs in Ek. apply Hn. exists i. split; [exact Hi|]. unfold key6.
    assert (Hi' : In i (tree4 t)) by (rewrite p_t4 in Hi; exact Hi). apply (in_tree4 t i I) in Hi'. destruct Hi' as [b Hb]. rewrite Hb in *. apply (Free i b Hb). exact Ek. }
  assert (Fo : f_sess f = None /\ w_src6 (f_new f) = e_src6 e /\ w_dst6 (f_new f) = e_dst6 e /\ w_dst4 (f_new f) = e_dst4 e /\ w_state (f_new f) = e_state e /\
    (bibs (f_t f) = bibs t /\ sess (f_t f) = sess t) /\
    match f_bib f with Some bid => f_t f = t /\ exists b, bibs t bid = Some b /\ b_src4 b = e_src4 e | None => w_src4 (f_new f) = e_src4 e end).
  { inversion F as [bid b E1 E2 E3 E4 E5 E6 E7 E8 E9 E10|bid sid' Hp E1 E2 E3 E4 U E5|P E1 E2 E3 B6 B4 Hc Hw|x0 P E1 St E2 E3|].
    - assert (Eb : b_src4 b = e_src4 e) by (apply (H6 (b_src4 b) (b_static b)); exists bid, b; auto).
      assert (Ec : completed p w (b_src4 b) = w).
      { rewrite Eb. unfold completed. destruct p; try reflexivity. unfold w, new_dst4. cbn. rewrite <- (Hicmp eq_refl). destruct (e_dst4 e); reflexivity. }
      rewrite Ec in E9. rewrite E9 in *. split; [|cbn; rewrite E4; split; [reflexivity|]; split; [reflexivity|]; split; [reflexivity|]; split; [reflexivity|]; split; [rewrite E1; auto|]; split; [exact E1|]; eauto].
      destruct (f_sess f) as [sid|] eqn:Ef; [|reflexivity]. exfalso. cbn [hit] in E10. destruct E10 as [N K]. apply nth_error_In in N. apply (ibs _ _ I _ _ E5) in N. destruct N as (s & Hs0 & Hb).
      apply Hs. exists (b_src6 b), (s_dst6 s), sid, s, b. unfold keys in K. rewrite Hs0 in K. rewrite Hb. auto 10.
    - exfalso. destruct U as [_ _ (t0 & n & b' & _ & _ & _ & _ & _ & _ & _ & _ & Hm & _)]. apply Hm. reflexivity.
    - rewrite Hw. rewrite E1. split; [exact E2|]. cbn. pose proof (p_bibs _ _ _ _ _ _ P). pose proof (p_sess _ _ _ _ _ _ P). auto 10.
    - exfalso. destruct St as (_ & Hm & _). apply Hm. reflexivity. }
  destruct Fo as (F1 & F2 & F3 & F4 & F5 & (Fb & Fs) & F6).
  destruct X as [(sid & s & b & _ & Ef & _)|[(_ & Hb & _)|(_ & _ & -> & sid & s & b' & m & C & _)]]; [congruence|congruence|].
  destruct C as [_ _ Ca Cs C6 Cb _ _]. destruct Ca.
  eexists t', _, sid, s, b'. split; [exact E|]. split; [rewrite <- Fs; exact a_s0|]. split; [rewrite F3, F4, F5 in Cs; exact Cs|]. split; [congruence|].
  split; [|split; [intros j; rewrite a_sess, Fs; reflexivity|split; [intros x; rewrite a_bibs, Fb; reflexivity|]]].
  - destruct (f_bib f) as [bid|]; [|destruct Cb as [_ Cb]; congruence]. destruct Cb as [Cb _]. destruct F6 as (Ft & b & Hb & Eb). rewrite Ft, Cb, Hb in a_b. destruct a_b as (_ & _ & a_b & _). congruence.
  - intros b0 Hb0. rewrite Fb, Hb0 in a_b. destruct a_b as (_ & A1 & A2 & A3). auto.
Qed.

(** Sessions and mappings of tables after it *)
Lemma sync_after : forall c p t e now, reachable p t -> e_timer e <> T_BAD ->
  (forall s6 s4 st, has t s6 s4 st -> (s6 = e_src6 e <-> s4 = e_src4 e)) ->
  ~ (exists s6 d6, has_session t s6 (e_src4 e) d6 (e_dst4 e)) -> (p = ICMP -> snd (e_dst4 e) = snd (e_src4 e)) ->
  exists t' evs, bib_add_session c p t e now [] = Ok (OK, t', evs) /\ reachable p t' /\ holds t' e /\
    (forall e0, holds t e0 -> holds t' e0) /\
    (forall s6 s4 st, has t s6 s4 st -> has t' s6 s4 st) /\
    (forall s6 s4 st, has t' s6 s4 st -> has t s6 s4 st \/ (s6 = e_src6 e /\ s4 = e_src4 e)) /\
    (forall s6 s4 d6 d4, has_session t' s6 s4 d6 d4 -> has_session t s6 s4 d6 d4 \/ (s6 = e_src6 e /\ s4 = e_src4 e /\ d6 = e_dst6 e /\ d4 = e_dst4 e)).
Proof.
  intros c p t e now R T M N P.
  destruct (sync_exact c p t e now R T) as (t' & evs & i & s & b & E & F & Es & B6 & B4 & S1 & B1 & Old); try assumption.
  { intros s4 st H. apply (M _ _ _ H). reflexivity. }
  { intros s6 st H. apply (M _ _ _ H). reflexivity. }
  exists t', evs. split; [exact E|]. split.
  { apply (reach_step c p t (OSync e now []) (RRc OK NoEntry) t' evs R Logic.I). cbn [Bib_Model.step]. rewrite E. reflexivity. }
  assert (Sb : forall x b0, bibs t x = Some b0 -> exists b1, bibs t' x = Some b1 /\ b_src6 b1 = b_src6 b0 /\ b_src4 b1 = b_src4 b0 /\ b_static b1 = b_static b0).
  { intros x b0 H. rewrite B1. destruct (x =? s_bib s) eqn:X; [|eauto]. assert (x = s_bib s) by lia. subst x. destruct (Old b0 H) as (O1 & O2 & O3). exists b. auto. }
  assert (Bb : forall x b1, bibs t' x = Some b1 -> (exists b0, bibs t x = Some b0 /\ b_src6 b1 = b_src6 b0 /\ b_src4 b1 = b_src4 b0 /\ b_static b1 = b_static b0) \/ b1 = b).
  { intros x b1 H. rewrite B1 in H. destruct (x =? s_bib s); [right; congruence|left; eauto]. }
  split; [|split; [|split; [|split]]].
  - exists i, s, b. rewrite S1, B1, !Z.eqb_refl. rewrite Es. cbn [s_dst6 s_dst4 s_state s_exp s_time]. auto 10.
  - intros e0 (j & s0 & b0 & Hs & Hb & H1 & H2 & H3). destruct (Sb _ _ Hb) as (b1 & Hb1 & Q1 & Q2 & _).
    exists j, s0, b1. split; [rewrite S1; destruct (j =? i) eqn:J; [assert (j = i) by lia; congruence|exact Hs]|].
    split; [exact Hb1|]. split; [congruence|]. split; [congruence|exact H3].
  - intros s6 s4 st (x & b0 & Hb & H1 & H2 & H3). destruct (Sb _ _ Hb) as (b1 & Hb1 & Q1 & Q2 & Q3). exists x, b1. repeat split; congruence.
  - intros s6 s4 st (x & b1 & Hb & H1 & H2 & H3). destruct (Bb _ _ Hb) as [(b0 & Hb0 & Q1 & Q2 & Q3)| ->]; [left; exists x, b0; repeat split; congruence|right; split; congruence].
  - intros s6 s4 d6 d4 (j & s0 & b1 & Hs & Hb & H1 & H2 & H3 & H4). rewrite S1 in Hs. destruct (j =? i) eqn:J.
    + right. injection Hs as <-. rewrite B1, Z.eqb_refl in Hb. injection Hb as <-. rewrite Es in H3, H4. cbn [s_dst6 s_dst4] in H3, H4. repeat split; congruence.
    + left. rewrite B1 in Hb. destruct (s_bib s0 =? s_bib s) eqn:X.
      * injection Hb as <-. destruct (reach_inv p t R) as [Iv _].
        assert (exists b0, bibs t (s_bib s0) = Some b0) as [b0 Hb0] by (pose proof (isb _ _ Iv _ _ Hs) as Y; destruct (bibs t (s_bib s0)); [eauto|congruence]).
        assert (Q : s_bib s0 = s_bib s) by lia. rewrite Q in Hb0. destruct (Old _ Hb0) as (O1 & O2 & _).
        exists j, s0, b0. rewrite Q. repeat split; congruence.
      * exists j, s0, b1. auto 10.
Qed.

(** The sessions [l] are of a single machine: they differ, and each node has one mask. *)
Definition coherent (l : list (proto * sentry)) : Prop :=
  NoDup (map (fun x => (fst x, e_src4 (snd x), e_dst4 (snd x))) l) /\
  (forall x y, In x l -> In y l -> fst x = fst y -> (e_src6 (snd x) = e_src6 (snd y) <-> e_src4 (snd x) = e_src4 (snd y))) /\
  (forall x, In x l -> fst x = ICMP -> snd (e_dst4 (snd x)) = snd (e_src4 (snd x))).

(** Nothing in the tables contradicts the sessions [l]: their nodes have no other masks, their masks no other nodes, and the sessions are new. *)
Definition room (s : db) (l : list (proto * sentry)) : Prop :=
  forall p e, In (p, e) l ->
    (forall s6 s4 st, has (get_table s p) s6 s4 st -> (s6 = e_src6 e <-> s4 = e_src4 e)) /\
    (forall s6 d6, ~ has_session (get_table s p) s6 (e_src4 e) d6 (e_dst4 e)).

Lemma get_set : forall s p q t, p <> OTHER -> get_table (set_table s p t) q = if proto_eq_dec p q then t else get_table s q.
Proof. intros s p q t N. destruct (proto_eq_dec p q) as [<-|D]; destruct p; try congruence; try reflexivity; destruct q; try congruence; reflexivity. Qed.

Lemma add_all_have : forall c now l s, sane_db s -> coherent l -> room s l -> Forall (fun x => (fst x = UDP \/ fst x = TCP \/ fst x = ICMP) /\ e_timer (snd x) <> T_BAD) l ->
  exists s' evs, add_all c s now (lend [] l) = Ok (s', evs) /\ sane_db s' /\
    (forall p e, In (p, e) l -> holds (get_table s' p) e) /\
    (forall p e, holds (get_table s p) e -> holds (get_table s' p) e) /\
    (forall p s6 s4 st, has (get_table s p) s6 s4 st -> has (get_table s' p) s6 s4 st) /\
    (forall p s6 s4 st, has (get_table s' p) s6 s4 st -> has (get_table s p) s6 s4 st \/ exists e, In (p, e) l /\ s6 = e_src6 e /\ s4 = e_src4 e) /\
    (forall p s6 s4 d6 d4, has_session (get_table s' p) s6 s4 d6 d4 -> has_session (get_table s p) s6 s4 d6 d4 \/
      exists e, In (p, e) l /\ s6 = e_src6 e /\ s4 = e_src4 e /\ d6 = e_dst6 e /\ d4 = e_dst4 e).
Proof.
  intros c now l. induction l as [|[p e] l IH]; intros s SD CO RO F.
  { exists s, []. split; [reflexivity|]. split; [exact SD|]. split; [intros p e []|]. auto 10. }
  inversion F as [|? ? [Fp Ft] F']; subst. cbn [fst snd] in Fp, Ft.
  assert (No : p <> OTHER) by (destruct Fp as [->|[->| ->]]; discriminate).
  destruct CO as (C1 & C2 & C3). inversion C1 as [|? ? Ni Nd]; subst. cbn [fst snd] in Ni.
  assert (T : reachable p (get_table s p)) by (destruct SD as (R1 & R2 & R3); destruct p; cbn [get_table]; try assumption; congruence).
  destruct (RO p e (or_introl eq_refl)) as (M & Nw).
  destruct (sync_after c p (get_table s p) e now T Ft M) as (t & evs & E & T' & H & K & B1 & B2 & S1).
  { intros (s6 & d6 & Q). exact (Nw _ _ Q). }
  { intros Q. exact (C3 (p, e) (or_introl eq_refl) Q). }
  assert (SD' : sane_db (set_table s p t)) by (destruct SD as (R1 & R2 & R3); destruct p; cbn [set_table]; repeat split; assumption || congruence).
  destruct (IH (set_table s p t) SD') as (s' & evs' & E' & SD2 & H' & K' & B1' & B2' & S1').
  { split; [exact Nd|]. split; intros; [apply C2|apply C3]; try assumption; right; assumption. }
  { intros q y Iy. destruct (RO q y (or_intror Iy)) as (M' & Nw'). rewrite get_set by exact No. destruct (proto_eq_dec p q) as [<-|D]; [|split; assumption]. split.
    - intros s6 s4 st Q. destruct (B2 _ _ _ Q) as [Q'|(-> & ->)]; [exact (M' _ _ _ Q')|]. apply (C2 (p, e) (p, y)); [left|right|]; auto.
    - intros s6 d6 Q. destruct (S1 _ _ _ _ Q) as [Q'|(_ & Q4 & _ & Qd)]; [exact (Nw' _ _ Q')|]. apply Ni. rewrite <- Q4, <- Qd.
      apply in_map_iff. exists (p, y). auto. }
  { exact F'. }
  exists s', (evs ++ evs'). cbn [lend add_all hd tl]. rewrite E. cbn [bind]. rewrite E'. split; [reflexivity|]. split; [exact SD2|].
  assert (Kx : forall q y, holds (get_table s q) y -> holds (get_table (set_table s p t) q) y) by (intros q y Q; rewrite get_set by exact No; destruct (proto_eq_dec p q) as [<-|]; auto).
  split; [|split; [|split; [|split]]].
  - intros q y [Q|Q]; [|apply H'; exact Q]. injection Q as <- <-. apply K'. rewrite get_set by exact No. destruct (proto_eq_dec p p); [exact H|congruence].
  - auto.
  - intros q s6 s4 st Q. apply B1'. rewrite get_set by exact No. destruct (proto_eq_dec p q) as [<-|]; auto.
  - intros q s6 s4 st Q. destruct (B2' _ _ _ _ Q) as [Q'|(y & Iy & Q')]; [|right; exists y; split; [right; exact Iy|exact Q']].
    rewrite get_set in Q' by exact No. destruct (proto_eq_dec p q) as [<-|]; [|left; exact Q']. destruct (B2 _ _ _ Q') as [Q2|Q2]; [left; exact Q2|right; exists e; split; [left; reflexivity|exact Q2]].
  - intros q s6 s4 d6 d4 Q. destruct (S1' _ _ _ _ _ Q) as [Q'|(y & Iy & Q')]; [|right; exists y; split; [right; exact Iy|exact Q']].
    rewrite get_set in Q' by exact No. destruct (proto_eq_dec p q) as [<-|]; [|left; exact Q']. destruct (S1 _ _ _ _ Q') as [Q2|Q2]; [left; exact Q2|right; exists e; split; [left; reflexivity|exact Q2]].
Qed.

(** Sessions in the tables of a machine are coherent, if they differ. *)
Lemma own_coherent : forall s l, sane_db s -> (forall p e, In (p, e) l -> (p = UDP \/ p = TCP \/ p = ICMP) /\ has_session (get_table s p) (e_src6 e) (e_src4 e) (e_dst6 e) (e_dst4 e)) ->
  NoDup (map (fun x => (fst x, e_src4 (snd x), e_dst4 (snd x))) l) -> (forall e, In (ICMP, e) l -> snd (e_dst4 e) = snd (e_src4 e)) -> coherent l.
Proof.
  intros s l SD O N IC. split; [exact N|]. split; [|intros [p e] Ix Q; cbn [fst snd] in *; subst p; exact (IC e Ix)].
  intros [p e] [q e'] Ix Iy Q. cbn [fst snd] in *. subst q.
  destruct (O p e Ix) as (P & j & x & b & _ & Hb & E6 & E4 & _). destruct (O p e' Iy) as (_ & j' & x' & b' & _ & Hb' & E6' & E4' & _).
  assert (R : reachable p (get_table s p)) by (destruct SD as (R1 & R2 & R3); destruct P as [->|[->| ->]]; assumption).
  assert (H1 : has (get_table s p) (e_src6 e) (e_src4 e) (b_static b)) by (exists (s_bib x), b; auto).
  assert (H2 : has (get_table s p) (e_src6 e') (e_src4 e') (b_static b')) by (exists (s_bib x'), b'; auto).
  split; intros Q; [destruct (has_unique p _ R _ _ _ _ _ _ H1 H2 (or_introl Q)) as (_ & Q' & _)|destruct (has_unique p _ R _ _ _ _ _ _ H1 H2 (or_intror Q)) as (Q' & _ & _)]; exact Q'.
Qed.

Lemma arrived : forall c d now1 now2 l l', Forall2 (arrives c d now1 now2) l l' ->
  map (fun x => (fst x, e_src4 (snd x), e_dst4 (snd x))) l' = map (fun x => (fst x, e_src4 (snd x), e_dst4 (snd x))) l /\
  (forall x, In x l -> exists y, In y l' /\ arrives c d now1 now2 x y) /\ (forall y, In y l' -> exists x, In x l /\ arrives c d now1 now2 x y).
Proof.
  intros c d now1 now2 l l' F. induction F as [|x y l l' A F (I1 & I2 & I3)]; [split; [reflexivity|]; split; intros ? []|].
  split; [|split].
  - cbn [map]. destruct A as (-> & (_ & _ & -> & -> & _) & _). rewrite I1. reflexivity.
  - intros z [<-|Z]; [exists y; split; [left; reflexivity|exact A]|]. destruct (I2 z Z) as (w & W & Aw). exists w. split; [right; exact W|exact Aw].
  - intros z [<-|Z]; [exists x; split; [left; reflexivity|exact A]|]. destruct (I3 z Z) as (w & W & Aw). exists w. split; [right; exact W|exact Aw].
Qed.

(** Sessions of one machine get to be sessions of the other: [l] are sessions in the tables [s1] of a machine, of which the machine tells; nothing in
    the tables [s] of the other contradicts them. After the datagram, the tables of the other have them, in the same state and with the same
    timer, and with as long left; they have all they had; and they have nothing else. Missing: machines of different byte orders
    ([C95_order_refuted]), sessions in state V4_INIT, collisions, and memory that runs out at the receiver. *)
Theorem C95_have_partial : forall h h' u u' iname iname' cap version pool6 c d now1 now2 l s1 s,
  h_be h = h_be h' ->
  u_xt u = XT_NAT64 -> is_u32 version -> same_version (u_version u) version = true -> (length iname <= 15)%nat -> Forall (fun c => 32 <= c <= 127) iname ->
  ready u' iname' -> l <> [] -> 32 + 40 * zlen l <= cap <= 2080 ->
  Forall (fun x => good_session pool6 (fst x) (snd x) /\ e_timer (snd x) <> T_SYN4 /\ left_ms d now1 (snd x) < 2^31) l -> 1 <= d -> 1 <= c_hz c -> 0 <= now1 < 2^64 ->
  sane_db s1 -> (forall p e, In (p, e) l -> has_session (get_table s1 p) (e_src6 e) (e_src4 e) (e_dst6 e) (e_dst4 e)) ->
  NoDup (map (fun x => (fst x, e_src4 (snd x), e_dst4 (snd x))) l) -> (forall e, In (ICMP, e) l -> snd (e_dst4 e) = snd (e_src4 e)) ->
  sane_db s -> room s l ->
  exists b datagram s' evs, announce h cap version iname d now1 l = Some b /\ updated_entries_cb h u iname b = Got (Some datagram) /\
    receive h' u' iname' true pool6 c s now2 [] datagram = Ok (Some (s', evs)) /\ sane_db s' /\
    (forall p e, In (p, e) l -> exists e', arrives c d now1 now2 (p, e) (p, e') /\ holds (get_table s' p) e') /\
    (forall p e, holds (get_table s p) e -> holds (get_table s' p) e) /\
    (forall p s6 s4 st, has (get_table s p) s6 s4 st -> has (get_table s' p) s6 s4 st) /\
    (forall p s6 s4 st, has (get_table s' p) s6 s4 st -> has (get_table s p) s6 s4 st \/ exists e, In (p, e) l /\ s6 = e_src6 e /\ s4 = e_src4 e) /\
    (forall p s6 s4 d6 d4, has_session (get_table s' p) s6 s4 d6 d4 -> has_session (get_table s p) s6 s4 d6 d4 \/
      exists e, In (p, e) l /\ s6 = e_src6 e /\ s4 = e_src4 e /\ d6 = e_dst6 e /\ d4 = e_dst4 e).
Proof.
  intros h h' u u' iname iname' cap version pool6 c d now1 now2 l s1 s E X V SV L FI R N C F D H Nw SD1 O ND IC SD RO.
  destruct (C95_arrive_partial h h' u u' iname iname' cap version pool6 c d now1 now2 l s [] E X V SV L FI R N C F D H Nw) as (b & datagram & l' & A1 & A2 & A3 & A4).
  assert (Fp : forall p e, In (p, e) l -> (p = UDP \/ p = TCP \/ p = ICMP) /\ e_timer e <> T_BAD).
  { intros p e I. apply (proj1 (Forall_forall _ _) F) in I. destruct I as ((_ & _ & _ & _ & _ & _ & T) & _). cbn [fst snd timer_fits] in T.
    destruct p; cbn [timer_fits] in T; try contradiction; (split; [auto|]); try exact T; rewrite T; discriminate. }
  assert (CO : coherent l) by (apply (own_coherent s1 l SD1); try assumption; intros p e I; split; [exact (proj1 (Fp p e I))|exact (O p e I)]).
  destruct (arrived c d now1 now2 l l' A3) as (M & I1 & I2). destruct CO as (C1 & C2 & C3).
  destruct (add_all_have c now2 l' s SD) as (s' & evs & Y & SD' & H1 & H2 & H3 & H4 & H5).
  { split; [rewrite M; exact C1|]. split.
    - intros x y Ix Iy. destruct (I2 x Ix) as (x0 & Jx & (-> & (-> & _ & -> & _) & _)). destruct (I2 y Iy) as (y0 & Jy & (-> & (-> & _ & -> & _) & _)). exact (C2 x0 y0 Jx Jy).
    - intros x Ix. destruct (I2 x Ix) as (x0 & Jx & (-> & (_ & _ & -> & -> & _) & _)). exact (C3 x0 Jx). }
  { intros p e I. destruct (I2 _ I) as ([p0 e0] & J & (Q & (Q1 & _ & Q2 & Q3 & _) & _)). cbn [fst snd] in *. subst p0. rewrite Q1, Q2, Q3. exact (RO p e0 J). }
  { apply Forall_forall. intros y I. destruct (I2 _ I) as ([p0 e0] & J & (Q & (_ & _ & _ & _ & _ & Q1) & _)). cbn [fst snd] in *. rewrite Q, Q1. exact (Fp p0 e0 J). }
  exists b, datagram, s', evs. split; [exact A1|]. split; [exact A2|]. split; [rewrite A4, Y; reflexivity|]. split; [exact SD'|].
  split; [|split; [exact H2|split; [exact H3|split]]].
  - intros p e I. destruct (I1 _ I) as ([q e'] & J & A). assert (q = p) by (destruct A as (A & _); exact A). subst q. exists e'. split; [exact A|exact (H1 p e' J)].
  - intros p s6 s4 st Q. destruct (H4 _ _ _ _ Q) as [Q'|(e' & J & Q1 & Q2)]; [left; exact Q'|right].
    destruct (I2 _ J) as ([p0 e0] & J0 & (P & (P1 & _ & P2 & _) & _)). cbn [fst snd] in *. subst p0. exists e0. split; [exact J0|]. split; congruence.
  - intros p s6 s4 d6 d4 Q. destruct (H5 _ _ _ _ _ Q) as [Q'|(e' & J & Q1 & Q2 & Q3 & Q4)]; [left; exact Q'|right].
    destruct (I2 _ J) as ([p0 e0] & J0 & (P & (P1 & P2 & P3 & P4 & _) & _)). cbn [fst snd] in *. subst p0. exists e0. split; [exact J0|]. repeat split; congruence.
Qed.

(** A machine has a TCP and a UDP session and tells of both; the other has none. *)
Example C95_have_case : exists s1 evs, add_all peer no_sessions 12000 [(TCP, jsession, []); (UDP, second, [])] = Ok (s1, evs) /\ sane_db s1 /\
  (forall p e, In (p, e) both -> has_session (get_table s1 p) (e_src6 e) (e_src4 e) (e_dst6 e) (e_dst4 e)) /\
  NoDup (map (fun x => (fst x, e_src4 (snd x), e_dst4 (snd x))) both) /\ (forall e, In (ICMP, e) both -> snd (e_dst4 e) = snd (e_src4 e)) /\
  room no_sessions both /\ room s1 [(TCP, second)] /\ ~ room s1 both.
Proof.
  destruct (add_all_have peer 12000 both no_sessions fresh_sane) as (s1 & evs & E & SD & H1 & _ & _ & H4 & H5).
  { split; [|split]; [repeat constructor; cbn; intuition discriminate| |intros x [<-|[<-|[]]] Q; discriminate].
    intros x y [<-|[<-|[]]] [<-|[<-|[]]] Q; try discriminate; split; reflexivity. }
  { intros p e _. assert (Z : forall p, get_table no_sessions p = init_table) by (intros []; reflexivity). rewrite Z. split; [intros ? ? ? (i & b & Q & _)|intros ? ? (i & x & b & Q & _)]; discriminate. }
  { repeat constructor; cbn [both fst snd]; auto; discriminate. }
  exists s1, evs. split; [exact E|]. split; [exact SD|].
  assert (O : forall p e, In (p, e) both -> has_session (get_table s1 p) (e_src6 e) (e_src4 e) (e_dst6 e) (e_dst4 e)).
  { intros p e I. destruct (H1 p e I) as (j & x & b & Q1 & Q2 & Q3 & Q4 & Q5 & Q6 & _). exists j, x, b. auto 10. }
  assert (Z : forall p, get_table no_sessions p = init_table) by (intros []; reflexivity).
  split; [exact O|]. split; [repeat constructor; cbn; intuition discriminate|]. split; [intros e [I|[I|[]]]; discriminate|].
  split; [intros p e _; rewrite Z; split; [intros ? ? ? (i & b & Q & _)|intros ? ? (i & x & b & Q & _)]; discriminate|].
  split.
  - intros p e [I|[]]. injection I as <- <-. split.
    + intros s6 s4 st Q. destruct (H4 _ _ _ _ Q) as [(i & b & Q' & _)|(e & [I|[I|[]]] & -> & ->)]; [discriminate| |discriminate]. injection I as <-. split; discriminate.
    + intros s6 d6 Q. destruct (H5 _ _ _ _ _ Q) as [(i & x & b & Q' & _)|(e & [I|[I|[]]] & _ & Q' & _)]; [discriminate| |discriminate]. injection I as <-. discriminate.
  - intros Q. destruct (Q TCP jsession (or_introl eq_refl)) as (_ & Q'). exact (Q' _ _ (O TCP jsession (or_introl eq_refl))).
Qed.

Print Assumptions C95_have_partial.
