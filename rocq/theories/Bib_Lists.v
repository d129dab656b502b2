(** Theorems about listings of the BIB and the removal of ranges. *)
Require Import Verif.Base Verif.Addr_Model Verif.Addr_Spec Verif.Addr_Proofs Verif.Addr_Properties Verif.Rtrie_Model Verif.Pool4_Model Verif.Fsm_Model Verif.Bib_Model
  Verif.Rbtree_Model Verif.Rbtree_Properties Verif.Bib_Inv Verif.Bib_Fate Verif.Bib_Find Verif.Bib_Add Verif.Bib_Ops Verif.Bib_Hist Verif.KeyPaging Verif.Bib_Listing Verif.Bib_Spec Verif.Bib_Properties Verif.Bib_Life.
From Coq Require Import Sorting.Sorted.
Local Ltac Zify.zify_post_hook ::= idtac.

Lemma pages_ok : forall A K (key : A -> K) ltb (pg : option K -> nat -> res (list A * bool)) rows caps, (forall off cap, pg off cap = Ok (key_page key ltb rows off cap)) ->
  Forall2 (fun (f : option K -> list A * bool) cap => forall off, pg off cap = Ok (f off)) (map (fun cap off => key_page key ltb rows off cap) caps) caps.
Proof. intros. induction caps as [|cap caps IH]; cbn [map]; constructor; [intros off; apply H|exact IH]. Qed.

(** ** C26 *)
(** The client asks for page after page of an unchanging table, each with its own
    size, and gets exactly the entries, in the order of their IPv4 transport
    addresses. *)
Theorem C26_listing : forall p t caps, reachable p t -> Forall (fun c => (1 <= c)%nat) caps -> n_bibs t < Z.of_nat (length caps) ->
  exists replies rows, Forall2 (fun (f : option ta -> list row * bool) cap => forall off, bib_foreach t off cap = Ok (f off)) replies caps /\
    request_all row_key replies None = Complete rows /\ StronglySorted (fun x y => lt_ta (row_key x) (row_key y)) rows /\
    forall s6 s4 st, In (s6, s4, st) rows <-> has t s6 s4 st.
Proof.
  intros p t caps R Hc Hl. destruct (reach_inv p t R) as [I _]. exists (map (fun c off => key_page row_key ltb_ta (bib_rows t) off c) caps), (bib_rows t).
  split; [apply pages_ok; intros off cap; apply bib_foreach_page; exact I|]. split; [|split; [exact (bib_rows_ascending t I)|]].
  - apply (request_all_exact row_key lt_ta ltb_ta ltb_ta_spec lt_ta_trans lt_ta_irr); [exact (bib_rows_ascending t I)|exact Hc|]. unfold bib_rows. rewrite map_length. rewrite (inb _ _ I) in Hl. lia.
  - intros s6 s4 st. rewrite (bib_rows_in t I). unfold has. split.
    + intros (i & b & Hb & E). injection E as -> -> ->. exists i, b. auto.
    + intros (i & b & Hb & <- & <- & <-). exists i, b. auto.
Qed.
Print Assumptions C26_listing.
(** And if the table changes between pages (say, the entry to resume from is
    deleted): whatever is listed was there, in order and once; what was there all
    along is listed. *)
Theorem C26_changing : forall p (reqs : list (tb * nat)), (forall t cap, In (t, cap) reqs -> reachable p t /\ (1 <= cap)%nat) ->
  exists replies, Forall2 (fun (f : option ta -> list row * bool) r => forall off, bib_foreach (fst r) off (snd r) = Ok (f off)) replies reqs /\
    match request_all row_key replies None with
    | Failed _ => False
    | Unfinished out => (length reqs <= length out)%nat
    | Complete out => StronglySorted (fun x y => lt_ta (row_key x) (row_key y)) out /\
        (forall s6 s4 st, In (s6, s4, st) out -> exists t cap, In (t, cap) reqs /\ has t s6 s4 st) /\
        (forall s6 s4 st, (forall t cap, In (t, cap) reqs -> has t s6 s4 st) -> In (s6, s4, st) out)
    end.
Proof.
  intros p reqs Hr. set (rq := map (fun r : tb * nat => (bib_rows (fst r), snd r)) reqs).
  exists (map (fun r off => key_page row_key ltb_ta (fst r) off (snd r)) rq). split.
  - subst rq. clear - Hr. induction reqs as [|(t, cap) reqs IH]; cbn [map]; constructor; [|apply IH; intros; apply Hr; right; assumption].
    intros off. cbn [fst snd]. apply bib_foreach_page. destruct (Hr t cap (or_introl eq_refl)) as [R _]. exact (proj1 (reach_inv p t R)).
  - assert (Hin : forall l cap, In (l, cap) rq <-> exists t, In (t, cap) reqs /\ l = bib_rows t).
    { intros l cap. unfold rq. rewrite in_map_iff. split; [intros ((t, c0) & E & Hi); cbn [fst snd] in E; injection E as <- <-; eauto|intros (t & Hi & ->); exists (t, cap); auto]. }
    assert (Hh : forall t cap s6 s4 st, In (t, cap) reqs -> In (s6, s4, st) (bib_rows t) <-> has t s6 s4 st).
    { intros t cap s6 s4 st Hi. destruct (Hr t cap Hi) as [R _]. rewrite (bib_rows_in t (proj1 (reach_inv p t R))). unfold has. split.
      - intros (i & b & Hb & E). injection E as -> -> ->. exists i, b. auto.
      - intros (i & b & Hb & <- & <- & <-). exists i, b. auto. }
    pose proof (request_all_sound row_key lt_ta ltb_ta ltb_ta_spec lt_ta_trans lt_ta_irr rq None) as H.
    assert (H1 : Forall (fun r => ascending row_key lt_ta (fst r)) rq).
    { apply Forall_forall. intros (l, cap) Hi. apply Hin in Hi. destruct Hi as (t & Hi & ->). apply bib_rows_ascending. exact (proj1 (reach_inv p t (proj1 (Hr t cap Hi)))). }
    assert (H2 : Forall (fun r => (1 <= snd r)%nat) rq).
    { apply Forall_forall. intros (l, cap) Hi. apply Hin in Hi. destruct Hi as (t & Hi & ->). exact (proj2 (Hr t cap Hi)). }
    specialize (H H1 H2). destruct (request_all _ _ None) as [out|out|out].
    + destruct H as (A & B & C). split; [exact A|]. split.
      * intros s6 s4 st Hx. destruct (B _ Hx) as (_ & (l, cap) & Hi & Hl). apply Hin in Hi. destruct Hi as (t & Hi & E). cbn [fst] in Hl. subst l. exists t, cap. split; [exact Hi|]. apply (Hh t cap _ _ _ Hi). exact Hl.
      * intros s6 s4 st Hx. apply C; [|reflexivity]. intros (l, cap) Hi. apply Hin in Hi. destruct Hi as (t & Hi & E). cbn [fst]. subst l. apply (Hh t cap _ _ _ Hi). exact (Hx t cap Hi).
    + contradiction.
    + destruct H as (_ & _ & H). unfold rq in H. rewrite map_length in H. exact H.
Qed.
Print Assumptions C26_changing.
Example C26_case : exists t t', reachable UDP t /\ reachable UDP t' /\ n_bibs t = 4 /\
  request_all row_key [fun off => match bib_foreach t off 1 with Ok r => r | _ => ([], true) end; fun off => match bib_foreach t' off 1 with Ok r => r | _ => ([], true) end; fun off => match bib_foreach t' off 9 with Ok r => r | _ => ([], true) end] None =
    Complete (bib_rows t) /\ n_bibs t' = 3.
Proof.
  destruct (run UDP init_table udp_history) as [(t, evs)| |] eqn:E; [|vm_compute in E; discriminate..].
  assert (R : reachable UDP t) by (exists udp_history, evs; split; [wf_history|exact E]).
  destruct (bib_rows t) as [|((x, y), z) rest] eqn:Er; [vm_compute in E; injection E as <- _; vm_compute in Er; discriminate|].
  destruct (run UDP t [(conf, ORm x y)]) as [(t', evs')| |] eqn:E2.
  2,3: exfalso; vm_compute in E; injection E as <- _; vm_compute in Er; injection Er as <- <- <- <-; vm_compute in E2; discriminate.
  exists t, t'. split; [exact R|]. split; [apply (reachable_app UDP t [(conf, ORm x y)] t' evs' R); [wf_history|exact E2]|].
  vm_compute in E. injection E as <- _. vm_compute in Er. injection Er as <- <- <- <-. vm_compute in E2. injection E2 as <- _. vm_compute. auto.
Qed.

(** ** C27 *)
Theorem C27_listing : forall c p t caps, reachable p t -> Forall (fun c => (1 <= c)%nat) caps -> n_sess t < Z.of_nat (length caps) ->
  exists replies rows, Forall2 (fun (f : option (ta * ta) -> list sentry * bool) cap => forall off, bib_foreach_session c p t off false cap = Ok (f off)) replies caps /\
    request_all sess_key replies None = Complete rows /\ StronglySorted (fun x y => lt_tt (e_src4 x, e_dst4 x) (e_src4 y, e_dst4 y)) rows /\
    (forall s6 s4 d6 d4, (exists e, In e rows /\ e_src6 e = s6 /\ e_src4 e = s4 /\ e_dst6 e = d6 /\ e_dst4 e = d4) <-> has_session t s6 s4 d6 d4) /\
    (forall e, In e rows -> exists j s, sess t j = Some s /\ e_state e = s_state s /\ e_timer e = s_exp s /\ e_time e = s_time s /\ e_dst4 e = s_dst4 s).
Proof.
  intros c p t caps R Hc Hl. destruct (reach_inv p t R) as [I _]. exists (map (fun n off => key_page sess_key ltb_tt (sess_rows c p t) off n) caps), (sess_rows c p t).
  split; [apply pages_ok; intros off cap; apply bib_foreach_session_page; exact I|]. split; [|split; [exact (sess_rows_ascending c p t I)|split]].
  - apply (request_all_exact sess_key lt_tt ltb_tt ltb_tt_spec lt_tt_trans lt_tt_irr); [exact (sess_rows_ascending c p t I)|exact Hc|].
    rewrite (ins _ _ I) in Hl. enough (length (sess_rows c p t) <= length (linked t))%nat by lia. unfold sess_rows. rewrite map_length. apply NoDup_incl_length.
    + pose proof (sess_rows_ascending c p t I) as A. apply (proj1 (ascending_map _ _ _ sess_key lt_tt (sess_row c p t) (sess_ids t))) in A. clear - A. induction A as [|x l S IH F]; constructor; auto. intros C. rewrite Forall_forall in F. exact (lt_tt_irr _ (F x C)).
    + intros j Hj. apply linked_in; [exact I|]. apply sess_ids_in; assumption.
  - intros s6 s4 d6 d4. unfold has_session. split.
    + intros (e & He & <- & <- & <- & <-). apply (sess_rows_in c p t I) in He. destruct He as (j & s & b & Hj & Hb & ->). exists j, s, b. cbn. auto 10.
    + intros (j & s & b & Hj & Hb & <- & <- & <- & <-). eexists. split; [apply (sess_rows_in c p t I); exists j, s, b; split; [exact Hj|split; [exact Hb|reflexivity]]|cbn; auto].
  - intros e He. apply (sess_rows_in c p t I) in He. destruct He as (j & s & b & Hj & Hb & ->). exists j, s. cbn. repeat split; auto.
Qed.
Print Assumptions C27_listing.

Theorem C27_changing : forall c p (reqs : list (tb * nat)), (forall t cap, In (t, cap) reqs -> reachable p t /\ (1 <= cap)%nat) ->
  exists replies, Forall2 (fun (f : option (ta * ta) -> list sentry * bool) r => forall off, bib_foreach_session c p (fst r) off false (snd r) = Ok (f off)) replies reqs /\
    match request_all sess_key replies None with
    | Failed _ => False
    | Unfinished out => (length reqs <= length out)%nat
    | Complete out => StronglySorted (fun x y => lt_tt (e_src4 x, e_dst4 x) (e_src4 y, e_dst4 y)) out /\
        (forall e, In e out -> exists t cap, In (t, cap) reqs /\ has_session t (e_src6 e) (e_src4 e) (e_dst6 e) (e_dst4 e)) /\
        (forall s4 d4, (forall t cap, In (t, cap) reqs -> exists s6 d6, has_session t s6 s4 d6 d4) -> exists e, In e out /\ e_src4 e = s4 /\ e_dst4 e = d4)
    end.
Proof.
  intros c p reqs Hr. set (rq := map (fun r : tb * nat => (sess_rows c p (fst r), snd r)) reqs).
  exists (map (fun r off => key_page sess_key ltb_tt (fst r) off (snd r)) rq). split.
  - subst rq. clear - Hr. induction reqs as [|(t, cap) reqs IH]; cbn [map]; constructor; [|apply IH; intros; apply Hr; right; assumption].
    intros off. cbn [fst snd]. apply bib_foreach_session_page. destruct (Hr t cap (or_introl eq_refl)) as [R _]. exact (proj1 (reach_inv p t R)).
  - assert (Hin : forall l cap, In (l, cap) rq <-> exists t, In (t, cap) reqs /\ l = sess_rows c p t).
    { intros l cap. unfold rq. rewrite in_map_iff. split; [intros ((t, c0) & E & Hi); cbn [fst snd] in E; injection E as <- <-; eauto|intros (t & Hi & ->); exists (t, cap); auto]. }
    pose proof (request_all_keys sess_key lt_tt ltb_tt ltb_tt_spec lt_tt_trans rq None) as H.
    assert (H1 : Forall (fun r => ascending sess_key lt_tt (fst r)) rq).
    { apply Forall_forall. intros (l, cap) Hi. apply Hin in Hi. destruct Hi as (t & Hi & ->). apply sess_rows_ascending. exact (proj1 (reach_inv p t (proj1 (Hr t cap Hi)))). }
    assert (H2 : Forall (fun r => (1 <= snd r)%nat) rq).
    { apply Forall_forall. intros (l, cap) Hi. apply Hin in Hi. destruct Hi as (t & Hi & ->). exact (proj2 (Hr t cap Hi)). }
    specialize (H H1 H2). destruct (request_all _ _ None) as [out|out|out].
    + destruct H as (A & B & C). split; [exact A|]. split.
      * intros e Hx. destruct (B _ Hx) as (_ & (l, cap) & Hi & Hl). apply Hin in Hi. destruct Hi as (t & Hi & E). cbn [fst] in Hl. subst l. exists t, cap. split; [exact Hi|].
        apply (sess_rows_in c p t (proj1 (reach_inv p t (proj1 (Hr t cap Hi))))) in Hl. destruct Hl as (j & s & b & Hj & Hb & ->). exists j, s, b. cbn. auto 10.
      * intros s4 d4 Hx. destruct (C (s4, d4)) as (e & He & Ek); [|exact Logic.I|injection Ek as <- <-; exists e; auto]. intros (l, cap) Hi. apply Hin in Hi. destruct Hi as (t & Hi & E). cbn [fst]. subst l.
        destruct (Hx t cap Hi) as (s6 & d6 & j & s & b & Hj & Hb & E6 & E4 & F6 & F4).
        eexists. split; [apply (sess_rows_in c p t (proj1 (reach_inv p t (proj1 (Hr t cap Hi))))); exists j, s, b; split; [exact Hj|split; [exact Hb|reflexivity]]|]. unfold sess_key. cbn [e_src4 e_dst4]. rewrite E4, F4. reflexivity.
    + contradiction.
    + destruct H as (_ & _ & H). unfold rq in H. rewrite map_length in H. exact H.
Qed.
Print Assumptions C27_changing.
Example C27_case : exists t, reachable UDP t /\ n_sess t = 4 /\
  let ask cap off := match bib_foreach_session conf UDP t off false cap with Ok r => r | _ => ([], true) end in
  request_all sess_key [ask 1%nat; ask 2%nat; ask 9%nat] None = Complete (sess_rows conf UDP t).
Proof. eexists. split; [exists udp_history; eexists; split; [wf_history|vm_compute; reflexivity]|]. split; [reflexivity|]. vm_compute. reflexivity. Qed.

(** ** C28 *)
(** Missing: prefixes with host bits ([C28_refuted]). *)
Theorem C28_range_partial : forall p t pf lo hi, reachable p t -> (forall s6 a q st, has t s6 (a, q) st -> 0 <= a < 2^32) -> wt_prefix4 pf -> p4_len pf <= 32 -> p4_addr pf mod 2^(32 - p4_len pf) = 0 ->
  exists t' evs, bib_rm_range t pf lo hi = Ok (t', evs) /\
    (forall s6 a q st, has t' s6 (a, q) st <-> has t s6 (a, q) st /\ ~ (in_prefix 32 (p4_addr pf) (p4_len pf) a /\ lo <= q <= hi)) /\
    (forall s6 a q d6 d4, has_session t' s6 (a, q) d6 d4 <-> has_session t s6 (a, q) d6 d4 /\ ~ (in_prefix 32 (p4_addr pf) (p4_len pf) a /\ lo <= q <= hi)).
Proof.
  intros p t pf lo hi R Hu Hw Hl Hm. destruct (reach_inv p t R) as [I _]. assert (Hv : prefix4_validate pf = OK) by (apply C03_prefix4_validate; auto).
  destruct (bib_rm_range_ok t pf lo hi I) as (t' & evs & n & l & E & _ & _ & Rm & El & Hlo & Hhi). exists t', evs. split; [exact E|].
  set (gone := fun a q => in_prefix 32 (p4_addr pf) (p4_len pf) a /\ lo <= q <= hi).
  assert (Hpf : forall i b, bibs t i = Some b -> in_pf t pf i = true <-> in_prefix 32 (p4_addr pf) (p4_len pf) (fst (b_src4 b))).
  { intros i b Hb. unfold in_pf. rewrite (key4_of _ _ _ Hb). apply prefix4_contains_spec; [apply Hw|destruct Hw as [_ Hw]; unfold is_u8 in Hw; lia|]. unfold is_u32. apply (Hu (b_src6 b) (fst (b_src4 b)) (snd (b_src4 b)) (b_static b)). exists i, b. rewrite <- surjective_pairing. auto. }
  assert (G : forall i b, bibs t i = Some b -> (In i l <-> gone (fst (b_src4 b)) (snd (b_src4 b)))).
  { intros i b Hb. assert (Hi : In i (tree4 t)) by (apply in_tree4; eauto). rewrite El, filter_In. unfold in_ports. rewrite (key4_of _ _ _ Hb). unfold gone, port_range_contains. rewrite andb_true_iff, !Z.leb_le.
    enough (X : lo <= snd (b_src4 b) -> (In i (upto (in_pf t pf) (skipn n (tree4 t))) <-> in_prefix 32 (p4_addr pf) (p4_len pf) (fst (b_src4 b)))) by tauto.
    intros Hq. split.
    - intros Hx. apply upto_all in Hx. apply (Hpf i b Hb). exact Hx.
    - intros Hx. rewrite <- (firstn_skipn n (tree4 t)) in Hi. apply in_app_iff in Hi. destruct Hi as [Hi|Hi].
      + exfalso. apply Hlo in Hi. rewrite (key4_of _ _ _ Hb) in Hi. apply (C03_prefix4_interval pf _ Hw Hv) in Hx. unfold lt_ta in Hi. cbn [fst snd] in Hi. lia.
      + pose proof (i4 _ _ I) as S. rewrite <- (firstn_skipn n (tree4 t)) in S. apply srt_parts in S. destruct S as (_ & S & _). clear Hlo El.
        assert (Hall : forall x, In x (skipn n (tree4 t)) -> exists bx, bibs t x = Some bx /\ p4_addr pf <= fst (b_src4 bx)).
        { intros x Hxx. assert (Hx4 : In x (tree4 t)) by (rewrite <- (firstn_skipn n (tree4 t)); apply in_or_app; right; exact Hxx). apply (in_tree4 _ _ I) in Hx4. destruct Hx4 as (bx & Hbx). exists bx. split; [exact Hbx|].
          destruct (Hhi x Hxx) as [Hk|Hk]; rewrite (key4_of _ _ _ Hbx) in Hk; [unfold lt_ta in Hk; cbn [fst snd] in Hk; lia|rewrite Hk; cbn; lia]. }
        clear Hhi. induction (skipn n (tree4 t)) as [|x m IH]; [destruct Hi|]. cbn [upto]. inversion S as [|? ? S1 F]; subst. rewrite Forall_forall in F.
        assert (Hxt : in_pf t pf x = true).
        { destruct (Hall x (or_introl eq_refl)) as (bx & Hbx & Hge). apply (Hpf x bx Hbx). apply (C03_prefix4_interval pf _ Hw Hv) in Hx. apply (C03_prefix4_interval pf _ Hw Hv). destruct Hi as [->|Hi]; [assert (bx = b) by congruence; subst; lia|].
          apply F in Hi. rewrite (key4_of _ _ _ Hb), (key4_of _ _ _ Hbx) in Hi. unfold lt_ta in Hi. lia. }
        rewrite Hxt. destruct Hi as [->|Hi]; [left; reflexivity|right]. apply IH; auto. intros y Hy. apply Hall. right. exact Hy. }
  assert (Gl : forall i b, bibs t i = Some b -> mem_id i l = true <-> gone (fst (b_src4 b)) (snd (b_src4 b))) by (intros i b Hb; rewrite mem_in; apply (G i b Hb)).
  split.
  - intros s6 a q st. fold (gone a q). unfold has. split.
    + intros (i & b & Hb & X6 & X4 & Xs). rewrite (r_bibs _ _ _ Rm) in Hb. destruct (mem_id i l) eqn:Em; [discriminate|]. split; [exists i, b; auto|]. intros Hg. assert (mem_id i l = true) by (apply (Gl i b Hb); rewrite X4; exact Hg). congruence.
    + intros [(i & b & Hb & X6 & X4 & Xs) Hn]. exists i, b. rewrite (r_bibs _ _ _ Rm). destruct (mem_id i l) eqn:Em; [exfalso; apply Hn; apply (Gl i b Hb) in Em; rewrite X4 in Em; exact Em|auto].
  - intros s6 a q d6 d4. fold (gone a q). unfold has_session. split.
    + intros (j & s & b & Hj & Hb & X6 & X4 & X). rewrite (r_bibs _ _ _ Rm) in Hb. destruct (mem_id (s_bib s) l) eqn:Em; [discriminate|]. apply (r_sess _ _ _ Rm) in Hj. split; [exists j, s, b; tauto|].
      intros Hg. assert (mem_id (s_bib s) l = true) by (apply (Gl _ b Hb); rewrite X4; exact Hg). congruence.
    + intros [(j & s & b & Hj & Hb & X6 & X4 & X) Hn]. assert (Hni : ~ In (s_bib s) l) by (intros Hi; apply Hn; apply (G _ b Hb) in Hi; rewrite X4 in Hi; exact Hi).
      exists j, s, b. split; [apply (r_sess _ _ _ Rm); auto|]. rewrite (r_bibs _ _ _ Rm). destruct (mem_id (s_bib s) l) eqn:Em; [apply mem_in in Em; contradiction|auto].
Qed.
Print Assumptions C28_range_partial.
Example C28_case : exists t t' evs, reachable UDP t /\ (forall s6 a q st, has t s6 (a, q) st -> 0 <= a < 2^32) /\ wt_prefix4 (P4 four 32) /\ bib_rm_range t (P4 four 32) 5000 6000 = Ok (t', evs) /\ n_bibs t = 4 /\ n_bibs t' < 4.
Proof.
  eexists _, _, _. split; [exists udp_history; eexists; split; [wf_history|vm_compute; reflexivity]|]. split; [|split; [unfold wt_prefix4, is_u32, is_u8, four; cbn; lia|split; [vm_compute; reflexivity|split; [reflexivity|vm_compute; reflexivity]]]].
  intros s6 a q st (i & b & Hb & _ & E & _). cbv in Hb. repeat match type of Hb with context [if ?c then _ else _] => destruct c end; try discriminate Hb; injection Hb as <-; injection E as <- _; unfold four; lia.
Qed.


(** 192.0.2.2/24 instead of 192.0.2.0/24: the entries of 192.0.2.1 stay. *)
Theorem C28_refuted : exists t pf lo hi t' evs s6 a q st, reachable UDP t /\ wt_prefix4 pf /\ p4_len pf <= 32 /\ bib_rm_range t pf lo hi = Ok (t', evs) /\
  has t s6 (a, q) st /\ in_prefix 32 (p4_addr pf) (p4_len pf) a /\ lo <= q <= hi /\ has t' s6 (a, q) st.
Proof.
  eexists _, (P4 (four + 1) 24), 0, 65535, _, _, (a6 1, 1000), four, 5000, false. split; [exists udp_history; eexists; split; [wf_history|vm_compute; reflexivity]|]. split; [unfold wt_prefix4, is_u32, is_u8, four; cbn; lia|]. split; [cbn; lia|].
  split; [vm_compute; reflexivity|]. split; [exists 2; eexists; split; [reflexivity|repeat split]|]. split; [vm_compute; reflexivity|]. split; [lia|]. exists 2. eexists. split; [reflexivity|repeat split].
Qed.
Print Assumptions C28_refuted.
