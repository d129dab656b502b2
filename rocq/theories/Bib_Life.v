(** Claims C21 to C23 and C54 to C58: expiration, stored packets, counters. *)
Require Import Verif.Base Verif.Addr_Model Verif.Addr_Spec Verif.Rtrie_Model Verif.Pool4_Model Verif.Pool4_Spec Verif.Fsm_Model Verif.Bib_Model
  Verif.Rbtree_Model Verif.Rbtree_Properties Verif.Bib_Inv Verif.Bib_Steps Verif.Bib_Fate Verif.Bib_Find Verif.Bib_Add Verif.Bib_Ops Verif.Bib_Hist Verif.Bib_Time
  Verif.Bib_Spec Verif.Bib_Properties Verif.Bib_Filter.
From Coq Require Import Sorting.Sorted Permutation.
Local Ltac Zify.zify_post_hook ::= idtac.

(** ** C21 *)
Lemma sane_cfg : forall c, sane c -> cfg_ok c.
Proof. intros c (H0 & H1 & H2 & H3 & H4). unfold cfg_ok. lia. Qed.
Lemma ceil_le : forall d a m n, 0 < d -> 0 <= m -> a + (m + d - 1) / d <= n <-> a * d + m <= n * d.
Proof.
  intros d a m n Hd Hm. pose proof (Z.div_mod (m + d - 1) d ltac:(lia)) as E. pose proof (Z.mod_pos_bound (m + d - 1) d Hd) as B. set (q := (m + d - 1) / d) in *. split; intros H; nia.
Qed.
Lemma expired_elapsed : forall c p s now, sane c -> expired c p s now <-> elapsed c p s now.
Proof.
  intros c p s now (H0 & H1 & H2 & H3 & H4). unfold expired, elapsed, lifetime, get_timeout, msecs_to_jiffies. change (2^31) with 2147483648 in *.
  assert (X : forall m, 0 <= m < 2147483648 -> (if m <? 2147483648 then (m + c_hz c - 1) / c_hz c else MAX_JIFFY_OFFSET) = (m + c_hz c - 1) / c_hz c) by (intros m Hm; destruct (m <? 2147483648) eqn:E; [reflexivity|lia]).
  destruct p, (s_exp s); unfold TCP_INCOMING_SYN; rewrite X by lia; symmetry; apply ceil_le; lia.
Qed.

(** While the clock does not go back and joold's news are about the past, after
    cleaning no expired session is left, and no other is gone.  A probed session
    starts over with the transitory lifetime (and expires there and then if that
    one is zero).  Missing: news from the future, lifetimes the kernel takes for
    infinite ([C21_refuted]). *)
Theorem C21_expiration_partial : forall p h t evs c now al, wf h -> clock 0 h -> run p init_table h = Ok (t, evs) -> last_time 0 h <= now < 2^62 -> sane c ->
  exists t' evs', clean_table c p t now al = Ok (t', evs') /\
  (forall j s, sess t' j = Some s -> ~ expired c p s now) /\
  (forall j s, sess t j = Some s -> ~ expired c p s now -> sess t' j = Some s) /\
  (forall j s, sess t j = Some s -> expired c p s now -> sess t' j = if c_tcp_trans c =? 0 then None else match p, s_exp s, s_state s =? ESTABLISHED with
     TCP, T_EST, true => Some (TS (s_dst6 s) (s_dst4 s) TRANS (s_bib s) now T_TRANS None) | _, _, _ => None end) /\
  (forall j, sess t j = None -> sess t' j = None).
Proof.
  intros p h t evs c now al W C E Hn Hs. destruct (run_ok p h _ _ _ W init_inv E) as (I & _).
  assert (O : ord now t) by (eapply ord_mono; [exact (run_ord p h 0 init_table t evs W C init_inv ord_init E)|lia]).
  destruct (clean_exact c p t now al (sane_cfg c Hs) ltac:(lia) I O) as (t' & evs' & E' & _ & _ & Hc & H1 & H2). exists t', evs'. split; [exact E'|].
  split; [intros j s Hj X; apply (expired_elapsed c p s now Hs) in X; exact (H1 j s Hj X)|].
  split; [intros j s Hj X; apply H2; [exact Hj|]; intros Y; apply X; apply expired_elapsed; assumption|].
  split; [|intros j Hj; rewrite Hc, Hj; reflexivity].
  intros j s Hj X. rewrite Hc, Hj. apply (expired_elapsed c p s now Hs) in X. unfold elapsed in X. unfold cleaned. replace (s_time s + get_timeout c p (s_exp s) <=? now) with true by lia. unfold renewed.
  destruct p; try (destruct (c_tcp_trans c =? 0); reflexivity). destruct (s_exp s) eqn:Ek; try (destruct (c_tcp_trans c =? 0); reflexivity). destruct (s_state s =? ESTABLISHED); [|destruct (c_tcp_trans c =? 0); reflexivity].
  cbn [s_time s_exp]. set (n := TS _ _ _ _ _ _ _). assert (Y : expired c TCP n now <-> elapsed c TCP n now) by (apply expired_elapsed; exact Hs). unfold expired, elapsed, lifetime in Y. cbn [n s_time s_exp] in Y.
  destruct Hs as (_ & _ & Ht & _). destruct (c_tcp_trans c =? 0) eqn:Ez.
  - replace (now + get_timeout c TCP T_TRANS <=? now) with true; [reflexivity|]. symmetry. apply Z.leb_le. apply Y. lia.
  - replace (now + get_timeout c TCP T_TRANS <=? now) with false; [reflexivity|]. symmetry. apply Z.leb_gt. destruct (Z_lt_ge_dec now (now + get_timeout c TCP T_TRANS)) as [L|L]; [exact L|].
    assert (now * c_hz c + c_tcp_trans c <= now * c_hz c) by (apply Y; lia). lia.
Qed.
Print Assumptions C21_expiration_partial.
Example C21_expiration_case : exists t evs t' evs', wf udp_history /\ clock 0 udp_history /\ run UDP init_table udp_history = Ok (t, evs) /\ last_time 0 udp_history = 40 /\ sane conf /\
  clean_table conf UDP t 300012 [] = Ok (t', evs') /\ sess t 1 <> None /\ sess t' 1 = None /\ sess t 3 <> None /\ sess t' 3 = sess t 3.
Proof.
  eexists _, _, _, _. split; [wf_history|]. split; [cbn; intuition (try lia; discriminate)|]. split; [vm_compute; reflexivity|]. split; [reflexivity|]. split; [unfold sane; cbn; lia|]. split; [vm_compute; reflexivity|].
  split; [discriminate|]. split; [reflexivity|]. split; [discriminate|reflexivity].
Qed.

(** Packets waiting for an answer go after six seconds, likewise. *)
Theorem C21_stored_packets : forall p h t evs c now al, wf h -> clock 0 h -> run p init_table h = Ok (t, evs) -> last_time 0 h <= now < 2^62 -> sane c ->
  exists t' evs', clean_table c p t now al = Ok (t', evs') /\ forall n, In n (queue t') <-> In n (queue t) /\ now * c_hz c < q_time n * c_hz c + 6000.
Proof.
  intros p h t evs c now al W C E Hn Hs. destruct (run_ok p h _ _ _ W init_inv E) as (I & _).
  assert (O : ord now t) by (eapply ord_mono; [exact (run_ord p h 0 init_table t evs W C init_inv ord_init E)|lia]).
  pose (P := fun u => ord now u /\ queue u = queue t).
  assert (HP : forall k u i s b u', inv [] u -> live [] u i s -> bibs u (s_bib s) = Some b -> P u -> inv [] u' -> fate_done u u' i s (fst (expire_cb p k now (entry_of c p b s))) (snd (expire_cb p k now (entry_of c p b s))) now -> k <> T_BAD -> P u').
  { intros k u i s b u' Iu Lu Hb (Ou & Hqu) Iu' Fd Nk. split.
    - refine (cl_fate c p (OClean now al) (ord now) _ [] u u' i s b (expire_cb p k now (entry_of c p b s)) Iu Iu' Lu Hb _ Fd Ou); [|cbn [reacts]; eauto]. apply ord_closed; [reflexivity|exact Logic.I].
    - rewrite <- Hqu. destruct (snd (expire_cb p k now (entry_of c p b s))) eqn:Ef; cbn [fate_done] in Fd; try (destruct Fd as [K _]; exact (k_q _ _ _ _ K)); try exact (g_q _ _ _ _ Fd). destruct (same_timer _ _); destruct Fd as [K _]; exact (k_q _ _ _ _ K). }
  unfold clean_table.
  destruct (clean_ok c p now T_EST P (fun u i s b u' a1 a2 a3 a4 a5 a6 => HP T_EST u i s b u' a1 a2 a3 a4 a5 a6 ltac:(discriminate)) t al I (conj O eq_refl)) as (t1 & e1 & al1 & E1 & I1 & _ & P1 & _). rewrite E1. cbn [bind].
  destruct (clean_ok c p now T_TRANS P (fun u i s b u' a1 a2 a3 a4 a5 a6 => HP T_TRANS u i s b u' a1 a2 a3 a4 a5 a6 ltac:(discriminate)) t1 al1 I1 P1) as (t2 & e2 & al2 & E2 & I2 & _ & P2 & _). rewrite E2. cbn [bind].
  destruct (clean_ok c p now T_SYN4 P (fun u i s b u' a1 a2 a3 a4 a5 a6 => HP T_SYN4 u i s b u' a1 a2 a3 a4 a5 a6 ltac:(discriminate)) t2 al2 I2 P2) as (t3 & e3 & al3 & E3 & I3 & _ & P3 & _). rewrite E3. cbn [bind].
  destruct (pktqueue_clean_ok c now (queue t3)) as (r & e4 & E4 & pre & Ep & _ & Hpre & Hr). rewrite E4. eexists _, _. split; [reflexivity|]. cbn [queue set_queue set_pkts].
  destruct P3 as [O3 Q3].
  assert (B : forall n, In n (queue t3) -> time_before now (u64 (q_time n + msecs_to_jiffies (c_hz c) (1000 * TCP_INCOMING_SYN))) = true <-> now * c_hz c < q_time n * c_hz c + 6000).
  { intros n Hq. pose proof (o_qmax _ _ O3 n Hq) as Hm. destruct Hs as (H0 & _). rewrite before_elapsed; [|lia|lia|lia|apply mtj; unfold TCP_INCOMING_SYN; lia].
    unfold msecs_to_jiffies, TCP_INCOMING_SYN. change (1000 * 6) with 6000. change (2^31) with 2147483648. change (6000 <? 2147483648) with true. cbv iota. pose proof (ceil_le (c_hz c) (q_time n) 6000 now H0 ltac:(lia)). lia. }
  intros n. rewrite <- Q3. split.
  - intros Hin. assert (Hq : In n (queue t3)) by (rewrite Ep; apply in_or_app; auto). split; [exact Hq|]. destruct r as [|m r]; [destruct Hin|].
    assert (Hm : In m (queue t3)) by (rewrite Ep; apply in_or_app; right; left; reflexivity). apply (B m Hm) in Hr. destruct Hin as [->|Hin]; [exact Hr|].
    pose proof (o_q _ _ O3) as S. rewrite Ep in S. apply sorted_suffix in S. inversion S as [|x l S' F]; subst. rewrite Forall_forall in F. specialize (F n Hin). destruct Hs as (H0 & _). nia.
  - intros [Hq Hl]. rewrite Ep in Hq. apply in_app_or in Hq. destruct Hq as [Hq|Hq]; [|exact Hq]. exfalso. specialize (Hpre n Hq). assert (Hq' : In n (queue t3)) by (rewrite Ep; apply in_or_app; auto).
    apply (B n Hq') in Hl. congruence.
Qed.
Print Assumptions C21_stored_packets.
Example C21_stored_packets_case : exists h t evs t' evs', wf h /\ clock 0 h /\ run TCP init_table h = Ok (t, evs) /\ last_time 0 h <= 6500 /\ sane conf /\ length (queue t) = 2%nat /\
  clean_table conf TCP t 6500 [] = Ok (t', evs') /\ length (queue t') = 1%nat.
Proof.
  exists [(conf, OTcp4 (four, 80) (remote 1) (remote6 1) syn4 99 20 []); (conf, OTcp4 (four, 80) (remote 2) (remote6 2) syn4 98 4000 [])]. eexists _, _, _, _.
  split; [wf_history|]. split; [cbn; lia|]. split; [vm_compute; reflexivity|]. split; [cbn; lia|]. split; [unfold sane, conf; cbn; lia|]. split; [reflexivity|]. split; [vm_compute; reflexivity|reflexivity].
Qed.

(** News from the future: joold takes the peer's word for how long a session has
    left, so a session may look as if it was last used later than now; the ones
    used after it was received wait behind it.  And a lifetime of 2^31 milliseconds
    or more is infinite to the kernel. *)
Definition from_future : list (cfg * op) :=
  [ (conf, OSync (SE (a6 3, 7) (remote6 1) (four, 9) (remote 1) 0 T_EST 1000000 0 false) 10 []);
    (conf, OAdd6 masks3 (a6 1, 1000) (remote6 1) (remote 1) 20 []) ].
Definition conf_long : cfg := Cfg 7200000 240000 (2^31) 60000 false false 10 false 1.
Theorem C21_refuted :
  (exists h t evs c now t' evs' j s, wf h /\ run UDP init_table h = Ok (t, evs) /\ sane c /\ (forall c o, In (c, o) h -> 0 <= op_now o <= now) /\ now < 2^62 /\
    clean_table c UDP t now [] = Ok (t', evs') /\ sess t' j = Some s /\ expired c UDP s now) /\
  (exists h t evs c now t' evs' j s, wf h /\ clock 0 h /\ run UDP init_table h = Ok (t, evs) /\ c_udp c < 2^32 /\ last_time 0 h <= now < 2^62 /\
    clean_table c UDP t now [] = Ok (t', evs') /\ sess t' j = Some s /\ expired c UDP s now).
Proof.
  split.
  - exists from_future. eexists _, _, conf, 300020, _, _, 2, _. split; [wf_history|]. split; [vm_compute; reflexivity|]. split; [unfold sane; cbn; lia|].
    split; [intros c o [X|[X|[]]]; injection X as _ <-; cbn; lia|]. split; [lia|]. split; [vm_compute; reflexivity|]. split; [reflexivity|]. unfold expired. cbn. lia.
  - exists [(conf_long, OAdd6 masks3 (a6 1, 1000) (remote6 1) (remote 1) 20 [])]. eexists _, _, conf_long, (2^31 + 20), _, _, 0, _. split; [wf_history|]. split; [cbn; lia|]. split; [vm_compute; reflexivity|].
    split; [cbn; lia|]. split; [cbn; lia|]. split; [vm_compute; reflexivity|]. split; [reflexivity|]. unfold expired. cbn. lia.
Qed.
Print Assumptions C21_refuted.

(** ** C22 *)
Lemma linked_in : forall t j, inv [] t -> In j (linked t) <-> sess t j <> None.
Proof.
  intros t j I. unfold linked. rewrite !in_app_iff. pose proof (ill _ _ I T_EST j) as A. pose proof (ill _ _ I T_TRANS j) as B. pose proof (ill _ _ I T_SYN4 j) as C. pose proof (ill _ _ I T_BAD j) as D. cbn [list_of] in *. split.
  - intros [H|[H|H]]; [apply A in H|apply B in H|apply C in H]; destruct H as (s & H & _); congruence.
  - intros H. destruct (sess t j) as [s|] eqn:E; [|congruence]. destruct (s_exp s) eqn:Ek.
    + left. apply A. exists s. auto.
    + right. left. apply B. exists s. auto.
    + right. right. apply C. exists s. auto.
    + exfalso. apply D. exists s. auto.
Qed.
Lemma linked_nodup : forall t, inv [] t -> NoDup (linked t).
Proof.
  intros t I. unfold linked. pose proof (iln _ _ I T_EST) as A. pose proof (iln _ _ I T_TRANS) as B. pose proof (iln _ _ I T_SYN4) as C. cbn [list_of] in *.
  assert (X : forall k k' j, In j (list_of t k) -> In j (list_of t k') -> k = k') by (intros k k' j H1 H2; apply (ill _ _ I) in H1; apply (ill _ _ I) in H2; destruct H1 as (s & H1 & <- & _), H2 as (s' & H2 & <- & _); congruence).
  assert (Ap : forall l r : list Z, NoDup l -> NoDup r -> (forall j, In j l -> ~ In j r) -> NoDup (l ++ r)).
  { induction l as [|x l IH]; intros r Nl Nr H; [exact Nr|]. inversion Nl; subst. cbn [app]. constructor; [|apply IH; auto; intros j Hj; apply H; right; exact Hj]. rewrite in_app_iff. intros [Y|Y]; [auto|]. exact (H x (or_introl eq_refl) Y). }
  apply Ap; [exact A|apply Ap; [exact B|exact C|]|].
  - intros j H1 H2. specialize (X T_TRANS T_SYN4 j H1 H2). discriminate.
  - intros j H1 H2. apply in_app_iff in H2. destruct H2 as [H2|H2]; [specialize (X T_EST T_TRANS j H1 H2)|specialize (X T_EST T_SYN4 j H1 H2)]; discriminate.
Qed.
Definition storing (t : tb) (j : Z) : bool := match sess t j with Some s => match s_stored s with Some _ => true | None => false end | None => false end.
Lemma holds_sum : forall t n, inv [] t -> holds t n <-> n = wl one t + wq one t.
Proof.
  intros t n I. assert (Q : wq one t = Z.of_nat (length (queue t))) by (unfold wq; induction (queue t) as [|x q IH]; [reflexivity|]; cbn [sumz length]; rewrite IH; change (one (q_skb x)) with 1; lia).
  assert (L : forall l, sumz (ws one t) l = Z.of_nat (length (filter (storing t) l))).
  { induction l as [|j l IH]; [reflexivity|]. cbn [sumz filter]. rewrite IH. unfold ws, storing. destruct (sess t j) as [s|]; [|lia]. destruct (s_stored s); cbn [length]; unfold one; lia. }
  assert (In' : forall j, In j (filter (storing t) (linked t)) <-> exists s skb, sess t j = Some s /\ s_stored s = Some skb).
  { intros j. rewrite filter_In, (linked_in t j I). unfold storing. split.
    - intros [_ H]. destruct (sess t j) as [s|]; [|discriminate]. destruct (s_stored s) as [k|] eqn:E; [|discriminate]. exists s, k. auto.
    - intros (s & k & H1 & H2). rewrite H1, H2. split; [discriminate|reflexivity]. }
  unfold wl. rewrite L, Q. split.
  - intros (l & Nd & Hl & ->). f_equal. f_equal. apply Permutation_length. apply NoDup_Permutation; [exact Nd|apply NoDup_filter; apply linked_nodup; exact I|]. intros j. rewrite Hl, In'. reflexivity.
  - intros ->. exists (filter (storing t) (linked t)). split; [apply NoDup_filter; apply linked_nodup; exact I|]. split; [exact In'|reflexivity].
Qed.
Lemma wl_nonneg : forall t, 0 <= wl one t + wq one t.
Proof.
  intros t. unfold wl, wq. assert (A : forall l, 0 <= sumz (ws one t) l) by (induction l as [|j l IH]; [reflexivity|]; cbn [sumz]; assert (0 <= ws one t j) by (unfold ws, one; destruct (sess t j) as [s|]; [destruct (s_stored s)|]; lia); lia).
  assert (B : forall l : list pnode, 0 <= sumz (fun n => one (q_skb n)) l) by (induction l as [|j l IH]; [reflexivity|]; cbn [sumz]; change (one (q_skb j)) with 1; lia). specialize (A (linked t)). specialize (B (queue t)). lia.
Qed.

Lemma run_pkts : forall p h M t t' evs, wf h -> (forall c o, In (c, o) h -> c_max_stored_pkts c <= M) -> 0 <= M < 2^32 -> inv [] t -> wl one t + wq one t <= pkts t <= M -> run p t h = Ok (t', evs) ->
  wl one t' + wq one t' <= pkts t' <= M.
Proof.
  intros p h M. induction h as [|(c, o) h IH]; intros t t' evs W Hc HM I B E; cbn [run] in E; [injection E as <- _; exact B|].
  apply Forall_cons_iff in W. destruct W as [W1 W2]. cbn [snd] in W1. destruct (step_ok c p o t W1 I) as [(E1 & _)|(x & t1 & e1 & E1 & S)]; rewrite E1 in E; cbn [bind] in E; [discriminate|].
  destruct (run p t1 h) as [(t2, e2)| |] eqn:E2; cbn [bind fst snd] in E; try discriminate. injection E as <- <-.
  apply (IH t1 t2 e2 W2); [intros c' o' Hi; apply (Hc c' o'); right; exact Hi|exact HM|exact (st_inv _ _ _ _ _ _ S)| |exact E2].
  pose proof (st_gauge _ _ _ _ _ _ S) as G. pose proof (st_leak _ _ _ _ _ _ S) as L. pose proof (st_flow _ _ _ _ _ _ S one) as F. split; [lia|].
  destruct (arrived o x) as [|k l] eqn:Ea; [cbn [sumz] in F; lia|]. assert (l = []) by (unfold arrived in Ea; destruct o; try discriminate; destruct x as [|[]|]; try discriminate; congruence). subst l. cbn [sumz] in F. change (one k) with 1 in F.
  pose proof (st_room _ _ _ _ _ _ S ltac:(congruence)) as R. unfold too_many, u32 in R. pose proof (wl_nonneg t). rewrite Z.mod_small in R by lia. specialize (Hc c o (or_introl eq_refl)). lia.
Qed.

(** The limit is never exceeded. *)
Theorem C22_bound : forall p h M t evs, wf h -> (forall c o, In (c, o) h -> c_max_stored_pkts c <= M) -> 0 <= M < 2^32 -> run p init_table h = Ok (t, evs) ->
  exists n, holds t n /\ 0 <= n <= M.
Proof.
  intros p h M t evs W Hc HM E. destruct (run_ok p h _ _ _ W init_inv E) as (I & _). pose proof (run_pkts p h M init_table t evs W Hc HM init_inv ltac:(cbn; lia) E) as B. pose proof (wl_nonneg t).
  exists (wl one t + wq one t). split; [apply holds_sum; [exact I|reflexivity]|lia].
Qed.
Print Assumptions C22_bound.

(** The counter is the number of packets held as long as static entries do not
    evict any.  Missing: those evictions ([C22_refuted]). *)
Definition evicts (t : tb) (o : op) : Prop := match o with OStatic _ s4 _ => exists n, In n (queue t) /\ q_src4 n = s4 | _ => False end.
Theorem C22_counter_partial : forall p h t evs, wf h -> run p init_table h = Ok (t, evs) ->
  (forall h1 c o h2 t1 e1, h = h1 ++ (c, o) :: h2 -> run p init_table h1 = Ok (t1, e1) -> ~ evicts t1 o) -> holds t (pkts t).
Proof.
  intros p h t evs W E N. destruct (run_ok p h _ _ _ W init_inv E) as (I & _ & _ & G). apply holds_sum; [exact I|]. cut (leaks p init_table h = 0); [cbn in *; lia|].
  assert (X : forall h' t0 e0 hp, wf h' -> h = hp ++ h' -> run p init_table hp = Ok (t0, e0) -> inv [] t0 -> leaks p t0 h' = 0).
  { induction h' as [|(c, o) h' IH]; intros t0 e0 hp W' Eh Er I0; [reflexivity|]. cbn [leaks]. apply Forall_cons_iff in W'. destruct W' as [W1 W2]. cbn [snd] in W1.
    destruct (step_ok c p o t0 W1 I0) as [(E1 & _)|(x & t1 & e1 & E1 & S)]; rewrite E1; [reflexivity|].
    rewrite (IH t1 (e0 ++ e1) (hp ++ [(c, o)]) W2); [|rewrite <- app_assoc; exact Eh| |exact (st_inv _ _ _ _ _ _ S)].
    - specialize (N hp c o h' t0 e0 Eh Er). destruct o; try reflexivity. cbn [leak]. cbn [step] in E1.
      destruct (bib_add_static_ok p t0 src6 src4 al I0) as (y & t2 & e2 & E2 & _ & _ & _ & _ & Sc). rewrite E2 in E1. cbn [bind] in E1. injection E1 as _ <- <-.
      inversion Sc as [? El|i b _ _ _ _ _ El|? El|i _ _ _ _ _ _ _ _ _ _ El]; rewrite El; try reflexivity. destruct p; try reflexivity. rewrite map_length.
      destruct (filter (fun n => ta_eqb (q_src4 n) src4) (queue t0)) as [|n l] eqn:Ef; [reflexivity|]. exfalso. apply N. cbn [evicts]. exists n. assert (Hin : In n (n :: l)) by (left; reflexivity). rewrite <- Ef in Hin. apply filter_In in Hin.
      destruct Hin as [Hin He]. split; [exact Hin|]. apply ta_eqb_eq. exact He.
    - rewrite run_app, Er. cbn [bind fst snd run]. rewrite E1. cbn [bind fst snd]. rewrite app_nil_r. reflexivity. }
  apply (X h init_table [] [] W eq_refl eq_refl init_inv).
Qed.
Print Assumptions C22_counter_partial.
Definition conf_one : cfg := Cfg 7200000 240000 300000 60000 false false 1 false 1.
Example C22_case : exists t evs, run TCP init_table [(conf_one, OTcp4 (four, 80) (remote 1) (remote6 1) syn4 99 20 []); (conf_one, OTcp4 (four, 80) (remote 2) (remote6 2) syn4 98 30 [])] = Ok (t, evs) /\ pkts t = 1 /\ map q_skb (queue t) = [99].
Proof. eexists _, _. split; [vm_compute; reflexivity|]. split; reflexivity. Qed.

(** A static entry evicts the packets that came to its address without returning
    their slots: here the only slot is lost for good. *)
Theorem C22_refuted : exists h t evs c s4 d4 d6 g skb now, wf h /\ run TCP init_table h = Ok (t, evs) /\ holds t 0 /\ 0 < c_max_stored_pkts c /\ c_drop_external_tcp c = false /\ ~ used4 t s4 /\ sg_syn g = true /\
  bib_add_tcp4 c t s4 d4 d6 g skb now [] = Ok (VDropIcmp, NoEntry, t, []).
Proof.
  exists [(conf_one, OTcp4 (four, 80) (remote 1) (remote6 1) syn4 99 20 []); (conf_one, OStatic (a6 9, 53) (four, 80) []); (conf_one, OClean 100000000 [])].
  eexists _, _, conf_one, (four, 81), (remote 2), (remote6 2), syn4, 98, 100000010. split; [repeat constructor|]. split; [vm_compute; reflexivity|].
  split; [exists []; split; [constructor|]; split; [intros j; split; [intros []|intros (s & k & H & _); discriminate]|reflexivity]|].
  split; [reflexivity|]. split; [reflexivity|]. split; [intros (s6 & st & i & b & Hb & _ & E & _); absent Hb E|]. split; [reflexivity|]. vm_compute. reflexivity.
Qed.
Print Assumptions C22_refuted.

(** ** C23 *)
Lemma queue_closed : forall c p o, c_drop_external_tcp c = true -> closed c p o (fun u => queue u = []).
Proof.
  intros c p o Hc. constructor.
  - intros D t t' i s b r I I' L Hb R F H. destruct r as [e f]. cbn [fst snd] in F. rewrite <- H. destruct f; cbn [fate_done] in F; try (destruct F as [K _]; exact (k_q _ _ _ _ K)); try exact (g_q _ _ _ _ F). destruct (same_timer _ _); destruct F as [K _]; exact (k_q _ _ _ _ K).
  - intros D t t' sid s b' I I' A _ _ _ H. rewrite (a_q _ _ _ _ _ A). exact H.
  - intros t t1 w masks bdl evs I Pr _ H. destruct (p_q _ _ _ _ _ _ Pr) as [[Q _]|(n & Hn & _)]; [rewrite Q; exact H|rewrite H in Hn; destruct Hn].
  - intros D t t' I _ _ _ _ Q H. rewrite Q. exact H.
  - intros t t' l I R _ H. rewrite (r_q _ _ _ R). exact H.
  - intros t q n H [(pre & E)|(_ & _ & F & _)]; [|congruence]. cbn. rewrite H in E. symmetry in E. apply app_eq_nil in E. apply E.
  - intros t t' s6 s4 evs I St H. inversion St as [|i b H1 H2 H3 H4 E H5| |i H1 H2 H3 H4 H5 H6 H7 H8 H9 H10 H11]; [rewrite E; exact H|]. rewrite H10, H. destruct p; reflexivity.
Qed.

(** UDP and ICMP never use freed memory; TCP, only when a packet from the IPv6 side
    answers a stored one whose address somebody else has by now (or memory is
    short), as long as joold brings TCP states only ([C57] is about others).
    Missing: that case ([C23_refuted]). *)
Theorem C23_upgrade_partial : forall p h, wf h -> (p = TCP -> forall c o, In (c, o) h -> sync_ok o) ->
  (exists t evs, run p init_table h = Ok (t, evs)) \/
  (p = TCP /\ run p init_table h = UB /\ exists h1 c d s6 d6 d4 g now al h2 t evs n, h = h1 ++ (c, OTcp6 d s6 d6 d4 g now al) :: h2 /\ run p init_table h1 = Ok (t, evs) /\
    In n (queue t) /\ q_dst6 n = d6 /\ (In false al \/ used4 t (q_src4 n))).
Proof.
  intros p h W Hs.
  assert (X : forall h' t0 e0 hp, h = hp ++ h' -> run p init_table hp = Ok (t0, e0) -> inv [] t0 -> (p = TCP -> states_ok t0) ->
    (exists t evs, run p t0 h' = Ok (t, evs)) \/ (p = TCP /\ run p t0 h' = UB /\ exists h1 c d s6 d6 d4 g now al h2 t evs n, h = h1 ++ (c, OTcp6 d s6 d6 d4 g now al) :: h2 /\ run p init_table h1 = Ok (t, evs) /\
    In n (queue t) /\ q_dst6 n = d6 /\ (In false al \/ used4 t (q_src4 n)))).
  { induction h' as [|(c, o) h' IH]; intros t0 e0 hp Eh Er I0 V0; [left; eexists _, _; reflexivity|]. cbn [run].
    assert (Hin : In (c, o) h) by (rewrite Eh; apply in_or_app; right; left; reflexivity). assert (W1 : wf_op o) by (unfold wf in W; rewrite Forall_forall in W; exact (W _ Hin)).
    destruct (step_ok c p o t0 W1 I0) as [(E1 & -> & Dg)|(x & t1 & e1 & E1 & S)]; rewrite E1; cbn [bind].
    - right. split; [reflexivity|]. split; [reflexivity|]. destruct Dg as [Dg|(j & s & Hj & Hv)]; [|destruct (Hv (V0 eq_refl _ _ Hj))]. destruct o; try contradiction. destruct Dg as (n & Hn & Hd & Hx).
      eexists hp, c, _, _, _, _, _, _, _, h', t0, e0, n. split; [exact Eh|]. split; [exact Er|]. split; [exact Hn|]. split; [exact Hd|]. destruct Hx as [Hx|Hx]; [left; exact Hx|right; apply (taken_used _ _ I0); exact Hx].
    - assert (E2 : run p init_table (hp ++ [(c, o)]) = Ok (t1, e0 ++ e1)) by (rewrite run_app, Er; cbn [bind fst snd run]; rewrite E1; cbn [bind fst snd]; rewrite app_nil_r; reflexivity).
      destruct (IH t1 (e0 ++ e1) (hp ++ [(c, o)])) as [(t & evs & E3)|(Hp & E3 & R)].
      + rewrite <- app_assoc. exact Eh.
      + exact E2.
      + exact (st_inv _ _ _ _ _ _ S).
      + intros Hp. apply (step_P c p o states_ok t0 x t1 e1 W1); auto. apply states_closed. exact (Hs Hp c o Hin).
      + left. rewrite E3. eexists _, _. reflexivity.
      + right. split; [exact Hp|]. rewrite E3. split; [reflexivity|exact R]. }
  apply (X h init_table [] [] eq_refl eq_refl init_inv). intros _ j s H. discriminate.
Qed.
Print Assumptions C23_upgrade_partial.

(** Never, if packets are not stored in the first place. *)
Theorem C23_no_external : forall p h, wf h -> (forall c o, In (c, o) h -> c_drop_external_tcp c = true /\ sync_ok o) -> exists t evs, run p init_table h = Ok (t, evs).
Proof.
  intros p h W Hc. destruct (C23_upgrade_partial p h W ltac:(intros _ c o Hi; apply (Hc c o Hi))) as [H|(_ & _ & h1 & c & d & s6 & d6 & d4 & g & now & al & h2 & t & evs & n & Eh & Er & Hn & _)]; [exact H|].
  exfalso. assert (Q : queue t = []); [|rewrite Q in Hn; destruct Hn]. unfold wf in W. rewrite Eh in W. apply Forall_app in W. destruct W as [W _].
  refine (run_P p (fun u => queue u = []) h1 init_table t evs W _ init_inv eq_refl Er). intros c0 o Hi. apply queue_closed. apply (Hc c0 o). rewrite Eh. apply in_or_app. left. exact Hi.
Qed.
Print Assumptions C23_no_external.
Definition conf_closed : cfg := Cfg 7200000 240000 300000 60000 false true 10 false 1.
Example C23_no_external_case : exists h, wf h /\ (forall c o, In (c, o) h -> c_drop_external_tcp c = true /\ sync_ok o) /\ length h = 3%nat.
Proof.
  exists [(conf_closed, OTcp6 masks3 (a6 1, 1) (remote6 2) (remote 2) syn6 30 []); (conf_closed, OTcp4 (four, 5000) (remote 1) (remote6 1) syn4 99 20 []); (conf_closed, OSync (SE (a6 3, 7) (remote6 1) (four, 9) (remote 1) 3 T_EST 15 0 false) 40 [])].
  split; [wf_history|]. split; [|reflexivity]. intros c o [X|[X|[X|[]]]]; injection X as <- <-; cbn; unfold valid_state; lia.
Qed.

(** A SYN to an address nobody has is stored; a node is given that address for
    another connection; then a second node calls the host the SYN came from. *)
Theorem C23_refuted : exists h, wf h /\ (forall c o, In (c, o) h -> sync_ok o /\ match o with OTcp6 _ _ _ _ _ _ al | OTcp4 _ _ _ _ _ _ al => al = [] | _ => False end) /\ run TCP init_table h = UB.
Proof.
  exists [(conf, OTcp4 (four, 5000) (remote 1) (remote6 1) syn4 99 20 []); (conf, OTcp6 masks3 (a6 1, 1) (remote6 2) (remote 2) syn6 30 []); (conf, OTcp6 masks3 (a6 2, 1) (remote6 1) (remote 1) syn6 40 [])].
  split; [wf_history|]. split; [|vm_compute; reflexivity]. intros c o [X|[X|[X|[]]]]; injection X as <- <-; cbn; auto.
Qed.
Print Assumptions C23_refuted.

(** ** C57: a session from joold in no TCP state *)
Theorem C57_states_refuted : exists h, wf h /\ run TCP init_table h = UB /\ forall c o, In (c, o) h -> c_drop_external_tcp c = true.
Proof.
  exists [(conf_closed, OSync (SE (a6 3, 7) (remote6 1) (four, 9) (remote 1) 7 T_EST 15 0 false) 40 []); (conf_closed, OTcp6 masks3 (a6 3, 7) (remote6 1) (remote 1) syn6 50 [])].
  split; [wf_history|]. split; [vm_compute; reflexivity|]. intros c o [X|[X|[]]]; injection X as <- <-; reflexivity.
Qed.
Print Assumptions C57_states_refuted.
(** All states are TCP states if joold's are. *)
Theorem C57_states_partial : forall p h t evs, wf h -> (forall c o, In (c, o) h -> sync_ok o) -> run p init_table h = Ok (t, evs) -> forall j s, sess t j = Some s -> valid_state (s_state s).
Proof.
  intros p h t evs W Hs E. refine (run_P p states_ok h init_table t evs W _ init_inv _ E); [|intros j s; discriminate]. intros c o Hi. apply states_closed. exact (Hs c o Hi).
Qed.
Print Assumptions C57_states_partial.
Example C57_states_case : exists t evs, run TCP init_table tcp_history = Ok (t, evs) /\ sess t 0 <> None.
Proof. eexists _, _. split; [vm_compute; reflexivity|discriminate]. Qed.

(** ** C54: the stored packets *)
Lemma kept_trail : forall p h t, kept_packets p t h = trail p t h.
Proof. intros p h. induction h as [|(c, o) h IH]; intros t; [reflexivity|]. cbn [kept_packets trail]. destruct (step c p t o) as [((x, t1), e1)| |]; [rewrite IH|..]; reflexivity. Qed.
Definition ind (k x : Z) : Z := if x =? k then 1 else 0.
Lemma count_ind : forall k l, sumz (ind k) l = Z.of_nat (count_occ Z.eq_dec l k).
Proof. intros k. induction l as [|x l IH]; [reflexivity|]. cbn [sumz count_occ]. rewrite IH. unfold ind. destruct (Z.eq_dec x k) as [->|N]; [rewrite Z.eqb_refl; lia|]. destruct (Z.eqb_spec x k); [contradiction|lia]. Qed.
Definition held_packets (t : tb) : list Z :=
  flat_map (fun j => match sess t j with Some s => match s_stored s with Some k => [k] | None => [] end | None => [] end) (linked t) ++ map q_skb (queue t).
Lemma held_sum : forall g t, sumz g (held_packets t) = wl g t + wq g t.
Proof.
  intros g t. unfold held_packets, wl, wq. rewrite sumz_app. f_equal.
  - induction (linked t) as [|j l IH]; [reflexivity|]. cbn [flat_map sumz]. rewrite sumz_app, IH. f_equal. unfold ws. destruct (sess t j) as [s|]; [|reflexivity]. destruct (s_stored s); cbn [sumz]; lia.
  - induction (queue t) as [|n q IH]; [reflexivity|]. cbn [map sumz]. rewrite IH. reflexivity.
Qed.
Lemma released_sum : forall g evs, sumz g (released evs) = sumz (we g) evs.
Proof. intros g. induction evs as [|e evs IH]; [reflexivity|]. cbn [released flat_map sumz]. change (flat_map _ evs) with (released evs). rewrite sumz_app, IH. f_equal. destruct e; cbn [sumz we]; lia. Qed.
Lemma held_in : forall t k, inv [] t -> In k (held_packets t) <-> stored_in t k.
Proof.
  intros t k I. unfold held_packets, stored_in. rewrite in_app_iff, in_flat_map, in_map_iff. split.
  - intros [(j & _ & H)|(n & <- & H)]; [left|right; eauto]. destruct (sess t j) as [s|] eqn:E; [|destruct H]. destruct (s_stored s) as [k'|] eqn:Ek; [|destruct H]. destruct H as [<-|[]]. exists j, s. auto.
  - intros [(j & s & H1 & H2)|(n & H1 & H2)]; [left|right; exists n; auto]. exists j. rewrite H1, H2. split; [apply linked_in; [exact I|congruence]|left; reflexivity].
Qed.
(** Every packet the table took is either still in it or was released, once. *)
Theorem C54_packets : forall p h t evs, wf h -> run p init_table h = Ok (t, evs) -> exists held, (forall k, In k held <-> stored_in t k) /\ Permutation (kept_packets p init_table h) (held ++ released evs).
Proof.
  intros p h t evs W E. destruct (run_ok p h _ _ _ W init_inv E) as (I & _ & F & _). exists (held_packets t). split; [intros k; apply held_in; exact I|].
  rewrite kept_trail. apply (Permutation_count_occ Z.eq_dec). intros k. specialize (F (ind k)). rewrite count_occ_app. apply Nat2Z.inj. rewrite Nat2Z.inj_add, <- !count_ind, held_sum, released_sum. cbn in F. lia.
Qed.
Print Assumptions C54_packets.
Corollary C54_once : forall p h t evs, wf h -> run p init_table h = Ok (t, evs) -> NoDup (kept_packets p init_table h) -> NoDup (released evs) /\ forall k, In k (released evs) -> ~ stored_in t k.
Proof.
  intros p h t evs W E N. destruct (C54_packets p h t evs W E) as (held & Hh & P). apply (Permutation_NoDup P) in N. split.
  - clear P Hh. induction held as [|x held IH]; [exact N|]. inversion N; auto.
  - intros k Hk Hs. apply Hh in Hs. clear P Hh. induction held as [|x held IH]; [destruct Hs|]. inversion N as [|y l X1 X2]; subst. destruct Hs as [->|Hs]; [apply X1; apply in_or_app; right; exact Hk|auto].
Qed.
Print Assumptions C54_once.
Example C54_case : exists t evs, run TCP init_table [(conf, OTcp4 (four, 80) (remote 1) (remote6 1) syn4 99 20 []); (conf, OTcp4 (four, 80) (remote 2) (remote6 2) syn4 98 4000 []); (conf, OClean 6500 [])] = Ok (t, evs) /\
  released evs = [99] /\ stored_in t 98.
Proof. eexists _, _. split; [vm_compute; reflexivity|]. split; [reflexivity|]. right. eexists. split; [left; reflexivity|reflexivity]. Qed.

(** ** C55: the counters of entries and sessions *)
Theorem C55_counters : forall p t, reachable p t ->
  (exists l, NoDup l /\ (forall i, In i l <-> bibs t i <> None) /\ n_bibs t = Z.of_nat (length l)) /\
  (exists l, NoDup l /\ (forall j, In j l <-> sess t j <> None) /\ n_sess t = Z.of_nat (length l)).
Proof.
  intros p t R. destruct (reach_inv p t R) as [I _]. split.
  - exists (tree4 t). split; [apply (C15_indexes p t R)|]. split; [|exact (inb _ _ I)]. intros i. rewrite (in4 _ _ I). split; [tauto|intros H; split; [exact H|intros []]].
  - exists (linked t). split; [apply linked_nodup; exact I|]. split; [|exact (ins _ _ I)]. intros j. apply linked_in. exact I.
Qed.
Print Assumptions C55_counters.
Example C55_case : exists t, reachable UDP t /\ n_bibs t = 4 /\ n_sess t = 4.
Proof. eexists. split; [exists udp_history; eexists; split; [wf_history|vm_compute; reflexivity]|]. split; reflexivity. Qed.

(** ** C56: which segments create sessions *)
(** From the IPv4 side, only SYNs. *)
Theorem C56_syn4 : forall c t s4 d4 d6 g skb now al v en t' evs, reachable TCP t -> sg_syn g = false -> bib_add_tcp4 c t s4 d4 d6 g skb now al = Ok (v, en, t', evs) ->
  forall j, sess t' j <> None -> sess t j <> None.
Proof.
  intros c t s4 d4 d6 g skb now al v en t' evs R Hg E j Hj. destruct (reach_inv TCP t R) as [I _].
  destruct (bib_add_tcp4_ok c t s4 d4 d6 g skb now al I) as [(E1 & _)|(v1 & en1 & t1 & evs1 & E1 & _ & _ & _ & _ & H)]; rewrite E in E1; [discriminate|]. injection E1 as <- <- <- <-.
  inversion H as [E1|v0 en0 sid s b Hs Ed Hb E4 F|E1|bid b E1|E1|E1 N F|E1|E1|bid b en0 Hb Hi E4 F|bid b en0 Hb Hi E4 F]; try (subst t'; exact Hj); try congruence.
  destruct F as (s1 & b1 & s' & Y1 & _ & _ & _ & _ & K & _). rewrite (k_sess _ _ _ _ K) in Hj. destruct (Z.eqb_spec j sid) as [->|N]; [congruence|exact Hj].
Qed.
Print Assumptions C56_syn4.
(** From the IPv6 side, SYNs and the segments a stored packet waits for.  Missing:
    those ([C56_refuted]). *)
Theorem C56_syn6_partial : forall c t d masks s6 d6 d4 g now al v en t' evs, reachable TCP t -> offers d masks -> sg_syn g = false -> (forall n, In n (queue t) -> q_dst6 n <> d6) ->
  bib_add_tcp6 c t d s6 d6 d4 g now al = Ok (v, en, t', evs) -> forall j, sess t' j <> None -> sess t j <> None.
Proof.
  intros c t d out s6 d6 d4 g now al v en t' evs R O Hg Hq E j Hj. destruct (reach_inv TCP t R) as [I _].
  destruct (bib_add_tcp6_ok c t d s6 d6 d4 g now al I (ex_intro _ out O)) as [(E1 & _)|[(E1 & _)|(e & v1 & en1 & t1 & f & t2 & evs2 & devs & E1 & F & Ed & I2 & _ & _ & Hm)]]; rewrite E in E1; [injection E1 as _ _ -> _; exact Hj|discriminate|].
  injection E1 as <- <- <- _. destruct (delete_list_ok _ _ I2) as (t3 & e3 & E3 & _ & _ & _ & Fs & _). assert (t3 = t') by congruence. subst t3. clear E3.
  assert (Hj2 : sess t2 j <> None) by (destruct (sess t' j) as [s|] eqn:Es; [|congruence]; apply Fs in Es; destruct Es; congruence).
  assert (Ft : sess (f_t f) = sess t).
  { inversion F as [bid b E1 E2 E3 E4 Hb Hi H6 H2 En Hit|bid sid' Hp E1 E2 E3 E4 U N|P E1 E2|x P E1 S E2 E3|x P]; try exact (p_sess _ _ _ _ _ _ P); [rewrite E1; reflexivity|].
    exfalso. destruct (u_ex _ _ _ _ _ _ _ _ U) as (t0 & n & b' & _ & _ & _ & Hin & Hd & _). exact (Hq n Hin Hd). }
  rewrite <- Ft. destruct e as [|x]; [|destruct Hm as (_ & _ & ->); exact Hj2]. destruct (f_sess f) as [sid|] eqn:Ef.
  - destruct Hm as (_ & s1 & b1 & s' & H1 & _ & _ & _ & _ & K & _). rewrite (k_sess _ _ _ _ K) in Hj2. destruct (Z.eqb_spec j sid) as [->|N]; [congruence|exact Hj2].
  - rewrite Hg in Hm. destruct Hm as (-> & _). exact Hj2.
Qed.
Print Assumptions C56_syn6_partial.
Example C56_case : exists t evs t' en, run TCP init_table tcp_history = Ok (t, evs) /\ bib_add_tcp6 conf t masks3 (a6 1, 1000) (remote6 7) (remote 7) (Seg V6 false false false) 50 [] = Ok (VContinue, en, t', []) /\ sess t' 0 <> None.
Proof. eexists _, _, _, _. split; [vm_compute; reflexivity|]. split; [vm_compute; reflexivity|discriminate]. Qed.
(** Any segment, even a RST, towards a host a SYN of which is stored creates an
    entry and a session. *)
Theorem C56_refuted : exists c t d masks s6 d6 d4 g now en t' evs j, reachable TCP t /\ states_ok t /\ offers d masks /\ sg_syn g = false /\ sg_rst g = true /\
  bib_add_tcp6 c t d s6 d6 d4 g now [] = Ok (VContinue, en, t', evs) /\ sess t j = None /\ sess t' j <> None /\ ~ used6 t s6 /\ used6 t' s6.
Proof.
  set (h := [(conf, OTcp4 (four, 5002) (remote 1) (remote6 1) syn4 99 20 [])]).
  exists conf. eexists _, masks3, _, (a6 2, 1), (remote6 1), (remote 1), (Seg V6 false false true), 30, _, _, _, 1.
  split; [exists h; eexists; split; [wf_history|vm_compute; reflexivity]|]. split.
  { refine (run_P TCP states_ok h init_table _ _ _ _ init_inv _ _); [wf_history| |intros j s; discriminate|vm_compute; reflexivity]. intros c o [E|[]]; injection E as _ <-; apply states_closed; exact Logic.I. }
  split; [exact masks3_offers|]. split; [reflexivity|]. split; [reflexivity|]. split; [vm_compute; reflexivity|]. split; [reflexivity|]. split; [discriminate|].
  split; [intros (s4 & st & i & b & Hb & _); cbv in Hb; discriminate|]. eexists _, _, 0, _. split; [reflexivity|repeat split].
Qed.
Print Assumptions C56_refuted.

(** ** C58: the operator's additions and removals *)
Lemma static_nomem : forall p t s6 s4 al t' evs, inv [] t -> bib_add_static p t s6 s4 al = Ok (Err ENOMEM, t', evs) -> In false al.
Proof.
  intros p t s6 s4 al t' evs I. unfold bib_add_static. destruct (draw_alloc al) as [a al'] eqn:Ea. destruct (draw_in _ _ _ Ea) as [_ [->|H]]; [|auto]. cbn [negb].
  destruct (find6 _ _ s6 I) as (o & n6 & E6 & H6). rewrite E6. cbn [bind]. destruct o as [i|].
  - unfold getb. destruct (bibs t i); cbn [bind]; [|discriminate]. destruct (ta_eqb _ _); discriminate.
  - destruct (find4 _ _ s4 I) as (o & n4 & E4 & H4). rewrite E4. cbn [bind]. destruct o; [discriminate|]. destruct p; try discriminate.
Qed.
(** Adding works iff the mapping is there already or neither address is in use; it
    affects nothing else. *)
Theorem C58_static : forall p t s6 s4 al, reachable p t -> ~ In false al -> exists x t' evs, bib_add_static p t s6 s4 al = Ok (x, t', evs) /\
  (x = OK <-> (exists st, has t s6 s4 st) \/ (~ used6 t s6 /\ ~ used4 t s4)) /\ (x <> OK -> x = Err EEXIST /\ t' = t /\ evs = []) /\
  (x = OK -> has t' s6 s4 true /\ (forall a b st, (a <> s6 \/ b <> s4) -> (has t' a b st <-> has t a b st)) /\ (forall a b y z, has_session t' a b y z <-> has_session t a b y z)).
Proof.
  intros p t s6 s4 al R Ha. destruct (reach_inv p t R) as [I _]. destruct (bib_add_static_ok p t s6 s4 al I) as (x & t' & evs & E & I' & _ & _ & _ & Sc). exists x, t', evs. split; [exact E|].
  inversion Sc as [E1 E2 E3|i b Hi Hb E6 E4 E1 E2|E1 E2 (i & b & Hi & Hb & Ho & Hn)|i Hi Hb Hs Ht Hl Hf Hp N6 N4 Hq He].
  - exfalso. subst x. exact (Ha (static_nomem _ _ _ _ _ _ _ I E)).
  - split; [split; [intros _; left; exists (b_static b), i, b; auto|auto]|]. split; [congruence|]. intros _.
    assert (B : forall y, bibs t' y = if y =? i then Some (TB s6 s4 true (b_sess b)) else bibs t y) by (intros y; rewrite E1; cbn; unfold upd; reflexivity).
    split; [exists i, (TB s6 s4 true (b_sess b)); rewrite B, Z.eqb_refl; auto|]. split.
    + intros a b0 st Hab. split; intros (y & by' & Hy & X6 & X4 & Xs).
      * rewrite B in Hy. destruct (Z.eqb_spec y i) as [->|N]; [injection Hy as <-; cbn in X6, X4; destruct Hab; congruence|]. exists y, by'. auto.
      * exists y, by'. rewrite B. destruct (Z.eqb_spec y i) as [->|N]; [|auto]. assert (by' = b) by congruence. subst by'. destruct Hab; congruence.
    + intros a b0 y z. assert (Es : sess t' = sess t) by (rewrite E1; reflexivity). unfold has_session. rewrite Es. split; intros (j & s & bj & Hj & Hbj & X6 & X4 & X).
      * rewrite B in Hbj. destruct (Z.eqb_spec (s_bib s) i) as [Eb|N]; [|exists j, s, bj; auto]. injection Hbj as <-. cbn in X6, X4. exists j, s, b. rewrite Eb. repeat split; try tauto; congruence.
      * exists j, s. rewrite B. destruct (Z.eqb_spec (s_bib s) i) as [Eb|N]; [|exists bj; auto]. rewrite Eb in Hbj. assert (bj = b) by congruence. subst bj. eexists. split; [exact Hj|]. split; [reflexivity|]. cbn. repeat split; try tauto; congruence.
  - split; [|split; [auto|discriminate]]. split; [discriminate|]. intros [(st & i' & b' & Hb' & X6 & X4 & _)|[N6 N4]].
    + exfalso. apply Hn. destruct (has_unique p t R (b_src6 b) (b_src4 b) (b_static b) s6 s4 (b_static b')) as (U1 & U2 & _); [exists i, b; auto|exists i', b'; auto|exact Ho|auto].
    + exfalso. destruct Ho as [Ho|Ho]; [apply N6; exists (b_src4 b), (b_static b), i, b; auto|apply N4; exists (b_src6 b), (b_static b), i, b; auto].
  - split; [split; [intros _; right|auto]|split; [congruence|]].
    + split; [intros (k & st & i' & b' & Hb' & X6 & _); apply N6; exists i'; split; [apply in_tree4; eauto|rewrite (key6_of _ _ _ Hb'); exact X6]|]. intros U. apply N4. apply (taken_used _ _ I). exact U.
    + intros _. split; [exists i, (TB s6 s4 true []); rewrite Hb; unfold upd; rewrite Z.eqb_refl; auto|]. split.
      * intros a b st Hab. unfold has. rewrite Hb. unfold upd. split; intros (y & by' & Hy & X6 & X4 & Xs).
        -- destruct (Z.eqb_spec y i) as [->|N]; [injection Hy as <-; cbn in X6, X4; destruct Hab; congruence|]. exists y, by'. auto.
        -- exists y, by'. destruct (Z.eqb_spec y i) as [->|N]; [congruence|auto].
      * intros a b y z. unfold has_session. rewrite Hs, Hb. unfold upd. split; intros (j & s & bj & Hj & Hbj & X).
        -- destruct (Z.eqb_spec (s_bib s) i) as [Eb|N]; [|exists j, s, bj; auto]. exfalso. apply (isb _ _ I _ _ Hj). congruence.
        -- exists j, s, bj. destruct (Z.eqb_spec (s_bib s) i) as [Eb|N]; [congruence|auto].
Qed.
Print Assumptions C58_static.
(** Removing works iff the mapping is there; it and its sessions go, nothing else. *)
Theorem C58_rm : forall p t s6 s4, reachable p t -> exists x t' evs, bib_rm t s6 s4 = Ok (x, t', evs) /\ (x = OK <-> exists st, has t s6 s4 st) /\ (x <> OK -> x = Err ESRCH /\ t' = t) /\
  (forall a b st, has t' a b st <-> has t a b st /\ ~ (a = s6 /\ b = s4)) /\ (forall a b y z, has_session t' a b y z <-> has_session t a b y z /\ ~ (a = s6 /\ b = s4)).
Proof.
  intros p t s6 s4 R. destruct (reach_inv p t R) as [I _]. destruct (bib_rm_ok t s6 s4 I) as (x & t' & evs & E & I' & _ & H). exists x, t', evs. split; [exact E|].
  destruct H as [(-> & i & b & Hi & Hb & E6 & E4 & Rm)|(-> & -> & N)].
  - split; [split; [intros _; exists (b_static b), i, b; auto|auto]|]. split; [congruence|].
    assert (B : forall y by' , bibs t y = Some by' -> (y = i <-> b_src6 by' = s6 /\ b_src4 by' = s4)).
    { intros y by' Hy. split; [intros ->; assert (by' = b) by congruence; subst; auto|]. intros [X _]. apply (C15_one_to_one p t R y i by' b Hy Hb). left. congruence. }
    assert (M : forall y, mem_id y [i] = (y =? i)) by (intros y; cbn; destruct (Z.eqb_spec y i), (Z.eqb_spec i y); auto; congruence).
    split.
    + intros a b0 st. unfold has. split.
      * intros (y & by' & Hy & X6 & X4 & Xs). rewrite (r_bibs _ _ _ Rm), M in Hy. destruct (Z.eqb_spec y i) as [|Ny]; [discriminate|]. split; [exists y, by'; auto|]. intros [-> ->]. apply Ny. apply (B y by' Hy). auto.
      * intros [(y & by' & Hy & X6 & X4 & Xs) Hn]. exists y, by'. rewrite (r_bibs _ _ _ Rm), M. destruct (Z.eqb_spec y i) as [->|Ny]; [|auto]. exfalso. apply Hn. destruct (proj1 (B i by' Hy) eq_refl). split; congruence.
    + intros a b0 y z. unfold has_session. split.
      * intros (j & s & bj & Hj & Hbj & X6 & X4 & X). apply (r_sess _ _ _ Rm) in Hj. destruct Hj as [Hj Hn]. rewrite (r_bibs _ _ _ Rm), M in Hbj. destruct (Z.eqb_spec (s_bib s) i) as [|Ny]; [discriminate|].
        split; [exists j, s, bj; auto|]. intros [-> ->]. apply Ny. apply (B _ bj Hbj). auto.
      * intros [(j & s & bj & Hj & Hbj & X6 & X4 & X) Hn]. assert (Ny : s_bib s <> i) by (intros Eb; apply Hn; destruct (proj1 (B _ bj Hbj) Eb); split; congruence).
        exists j, s, bj. split; [apply (r_sess _ _ _ Rm); split; [exact Hj|intros [|[]]; congruence]|]. rewrite (r_bibs _ _ _ Rm), M. destruct (Z.eqb_spec (s_bib s) i); [contradiction|auto].
  - assert (N' : forall st, ~ has t s6 s4 st) by (intros st (i & b & Hb & X6 & X4 & _); apply N; exists i, b; split; [apply in_tree4; eauto|auto]).
    split; [split; [discriminate|intros (st & H); destruct (N' st H)]|]. split; [auto|]. split.
    + intros a b st. split; [|tauto]. intros H. split; [exact H|]. intros [-> ->]. exact (N' st H).
    + intros a b y z. split; [|tauto]. intros H. split; [exact H|]. intros [-> ->]. destruct H as (j & s & bj & Hj & Hbj & X6 & X4 & _). apply (N' (b_static bj)). exists (s_bib s), bj. auto.
Qed.
Print Assumptions C58_rm.
Theorem C58_flush : forall p t, reachable p t -> exists t' evs, flush_table t = Ok (t', evs) /\ (forall i, bibs t' i = None) /\ (forall j, sess t' j = None) /\ queue t' = queue t.
Proof.
  intros p t R. destruct (reach_inv p t R) as [I _]. destruct (flush_table_ok t I) as (t' & evs & E & _ & _ & Rm). exists t', evs. split; [exact E|]. split; [|split; [|exact (r_q _ _ _ Rm)]].
  - intros i. rewrite (r_bibs _ _ _ Rm). destruct (mem_id i (tree4 t)) eqn:Em; [reflexivity|]. destruct (bibs t i) as [b|] eqn:Hb; [|reflexivity]. assert (In i (tree4 t)) by (apply in_tree4; eauto). apply mem_in in H. congruence.
  - intros j. destruct (sess t' j) as [s|] eqn:Hj; [|reflexivity]. apply (r_sess _ _ _ Rm) in Hj. destruct Hj as [Hj N]. exfalso. apply N. pose proof (isb _ _ I _ _ Hj) as X. apply in_tree4; [exact I|]. destruct (bibs t (s_bib s)) as [b|]; [eauto|congruence].
Qed.
Print Assumptions C58_flush.
Example C58_case : exists t t' t'' e1 e2, reachable UDP t /\ has t (a6 1, 1000) (four, 5000) false /\ bib_add_static UDP t (a6 1, 1000) (four, 5000) [] = Ok (OK, t', e1) /\ has t' (a6 1, 1000) (four, 5000) true /\
  bib_add_static UDP t (a6 1, 1000) (four, 4999) [] = Ok (Err EEXIST, t, []) /\ bib_rm t' (a6 1, 1000) (four, 5000) = Ok (OK, t'', e2) /\ ~ used6 t'' (a6 1, 1000).
Proof.
  eexists _, _, _, _, _. split; [exists udp_history; eexists; split; [wf_history|vm_compute; reflexivity]|]. split; [eexists 2, _; split; [reflexivity|repeat split]|]. split; [vm_compute; reflexivity|].
  split; [eexists 2, _; split; [reflexivity|repeat split]|]. split; [vm_compute; reflexivity|]. split; [vm_compute; reflexivity|]. intros (s4 & st & i & b & Hb & E & _). absent Hb E.
Qed.
