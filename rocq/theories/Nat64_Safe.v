(** Claim C60: processing a packet is defined, and leads to a database of which
    everything above holds again. *)
Require Import Verif.Base Verif.Addr_Model Verif.Rtrie_Model Verif.Pool4_Model Verif.Fsm_Model Verif.Bib_Model Verif.Bib_Inv Verif.Bib_Find Verif.Bib_Add Verif.Bib_Ops Verif.Bib_Hist Verif.Bib_Spec Verif.Bib_Properties
  Verif.Nat64_Model Verif.Nat64_Spec Verif.Nat64_Properties Verif.Nat64_Errors.
Local Ltac Zify.zify_post_hook ::= idtac.

Lemma one_step : forall c p o t x t' evs, wf_op o -> reachable p t -> step c p t o = Ok (x, t', evs) -> reachable p t'.
Proof.
  intros c p o t x t' evs W R E. apply (reachable_app p t [(c, o)] t' (evs ++ []) R); [constructor; [exact W|constructor]|]. cbn [run]. rewrite E. reflexivity.
Qed.
Lemma reachable_set : forall s p t, reachable_db s -> p <> TCP -> reachable p t -> reachable_db (set_table s p t).
Proof. intros s p t (Ru & Rt & St & Ri) Np R. unfold reachable_db. destruct p; try congruence; cbn [set_table d_udp d_tcp d_icmp]; auto. Qed.

(** The one way it can go wrong: somebody else has the address of a stored packet
    for where this one goes (or memory is short). *)
Definition trouble (s : db) (al : list bool) (d6 : ta) : Prop := exists q, In q (queue (d_tcp s)) /\ q_dst6 q = d6 /\ (In false al \/ used4 (d_tcp s) (q_src4 q)).

Lemma simple6_defined : forall g n s v, reachable_db s -> sound g n -> v_pr v <> TCP -> v_pr v <> OTHER ->
  exists x en s' evs, ipv6_simple g n s v = Ok (x, en, s', evs) /\ reachable_db s'.
Proof.
  intros g n s v R (Us & Fi & _) Np No. unfold ipv6_simple. destruct (xlat_dst_6to4 g v) as [d4|]; [|eexists _, _, _, _; split; [reflexivity|exact R]].
  destruct (Fi (v_pr v)) as (f & Ef). rewrite Ef. cbn [bind]. destruct f as [d|]; [|eexists _, _, _, _; split; [reflexivity|exact R]].
  pose proof (reachable_table _ _ R No) as Rt. destruct (reach_inv _ _ Rt) as [I _].
  assert (W : wf_op (OAdd6 d (v_src v) (v_dst v) d4 (n_now n) (n_al n))) by (exact (Us _ _ Ef)).
  destruct (step_ok (g_cfg g) (v_pr v) _ _ W I) as [(_ & Ep & _)|(x & t' & evs & E & _)]; [congruence|]. pose proof (one_step _ _ _ _ _ _ _ W Rt E) as R'.
  cbn [step] in E. destruct (v_pr v) eqn:Ev; try congruence; unbind E r Er; rewrite Er; destruct r as [[[e en] t1] evs1]; injection E as _ -> ->; cbn [bind]; (eexists _, _, _, _; split; [reflexivity|]); apply reachable_set; auto; discriminate.
Qed.
Lemma simple4_defined : forall g n s v, reachable_db s -> v_pr v <> TCP -> v_pr v <> OTHER ->
  exists x en s' evs, ipv4_simple g n s v = Ok (x, en, s', evs) /\ reachable_db s'.
Proof.
  intros g n s v R Np No. unfold ipv4_simple. destruct (xlat_src_4to6 g v) as [d6|]; [|eexists _, _, _, _; split; [reflexivity|exact R]].
  pose proof (reachable_table _ _ R No) as Rt. destruct (reach_inv _ _ Rt) as [I _].
  assert (W : wf_op (OAdd4 (v_dst v) (v_src v) d6 (n_now n) (n_al n))) by exact Logic.I.
  destruct (step_ok (g_cfg g) (v_pr v) _ _ W I) as [(_ & Ep & _)|(x & t' & evs & E & _)]; [congruence|]. pose proof (one_step _ _ _ _ _ _ _ W Rt E) as R'.
  cbn [step] in E. destruct (v_pr v) eqn:Ev; try congruence; unbind E r Er; rewrite Er; destruct r as [[e en] t1]; injection E as _ -> _; cbn [bind]; (eexists _, _, _, _; split; [reflexivity|]); apply reachable_set; auto; discriminate.
Qed.
Lemma tcp6_defined : forall g n s v, reachable_db s -> sound g n -> v_pr v = TCP ->
  (exists x en s' evs, ipv6_tcp g n s v = Ok (x, en, s', evs) /\ reachable_db s') \/ (ipv6_tcp g n s v = UB /\ trouble s (n_al n) (v_dst v)).
Proof.
  intros g n s v R (Us & Fi & _) Ep. unfold ipv6_tcp. destruct (xlat_dst_6to4 g v) as [d4|]; [|left; eexists _, _, _, _; split; [reflexivity|exact R]].
  destruct (Fi (v_pr v)) as (f & Ef). rewrite Ef. cbn [bind]. destruct f as [d|]; [|left; eexists _, _, _, _; split; [reflexivity|exact R]].
  destruct R as (Ru & Rt & St & Ri). destruct (reach_inv _ _ Rt) as [I _].
  assert (W : wf_op (OTcp6 d (v_src v) (v_dst v) d4 (v_seg v) (n_now n) (n_al n))) by (exact (Us _ _ Ef)).
  destruct (step_ok (g_cfg g) TCP _ _ W I) as [(E & _ & [(q & Hi & Hd & Hx)|(j & s0 & Hj & Hv)])|(x & t' & evs & E & _)]; [right|destruct (Hv (St _ _ Hj))|].
  { cbn [step] in E. destruct (bib_add_tcp6 _ _ _ _ _ _ _ _ _) as [[[[? ?] ?] ?]| |]; try discriminate. split; [reflexivity|]. exists q. split; [exact Hi|]. split; [exact Hd|].
    destruct Hx as [Hx|Hx]; [left; exact Hx|right; apply (taken_used _ _ I); exact Hx]. }
  left. pose proof (one_step _ _ _ _ _ _ _ W Rt E) as R'. pose proof (step_P _ _ _ states_ok _ _ _ _ W ltac:(apply states_closed; exact Logic.I) I St E) as S'.
  cbn [step] in E. unbind E r Er. rewrite Er. destruct r as [[[e en] t1] evs1]. injection E as _ -> ->. cbn [bind]. eexists _, _, _, _. split; [reflexivity|]. unfold reachable_db. cbn [set_table d_udp d_tcp d_icmp]. auto.
Qed.
Lemma tcp4_defined : forall g n s v, reachable_db s -> exists x en s' evs, ipv4_tcp g n s v = Ok (x, en, s', evs) /\ reachable_db s'.
Proof.
  intros g n s v R. unfold ipv4_tcp. destruct (xlat_src_4to6 g v) as [d6|]; [|eexists _, _, _, _; split; [reflexivity|exact R]].
  destruct R as (Ru & Rt & St & Ri). destruct (reach_inv _ _ Rt) as [I _].
  assert (W : wf_op (OTcp4 (v_dst v) (v_src v) d6 (v_seg v) (n_skb n) (n_now n) (n_al n))) by exact Logic.I.
  destruct (step_ok (g_cfg g) TCP _ _ W I) as [(_ & _ & [[]|(j & s0 & Hj & Hv)])|(x & t' & evs & E & _)]; [destruct (Hv (St _ _ Hj))|].
  pose proof (one_step _ _ _ _ _ _ _ W Rt E) as R'. pose proof (step_P _ _ _ states_ok _ _ _ _ W ltac:(apply states_closed; exact Logic.I) I St E) as S'.
  cbn [step] in E. unbind E r Er. rewrite Er. destruct r as [[[e en] t1] evs1]. injection E as _ -> ->. cbn [bind]. eexists _, _, _, _. split; [reflexivity|]. unfold reachable_db. cbn [set_table d_udp d_tcp d_icmp]. auto.
Qed.

Lemma fu_defined : forall g n s v, reachable_db s -> sound g n -> v_pr v <> OTHER -> v_err v = true \/ v_l4 v = v_pr v ->
  (exists x en s' evs, filtering_and_updating g n s v = Ok (x, en, s', evs) /\ reachable_db s') \/
  (filtering_and_updating g n s v = UB /\ v_err v = false /\ v_fam v = V6 /\ v_pr v = TCP /\ trouble s (n_al n) (v_dst v)).
Proof.
  intros g n s v R So No Hv. pose proof So as (_ & _ & Co). unfold filtering_and_updating, fu_admit.
  set (ok := fun r : res fu => exists x en s' evs, r = Ok (x, en, s', evs) /\ reachable_db s').
  assert (Same : forall x, ok (Ok (x, NoEntry, s, @nil ev))) by (intros x; eexists _, _, _, _; split; [reflexivity|exact R]).
  assert (U : v_err v = false -> ok (fu_update g n s v) \/ (fu_update g n s v = UB /\ v_err v = false /\ v_fam v = V6 /\ v_pr v = TCP /\ trouble s (n_al n) (v_dst v))).
  { intros Hf. destruct Hv as [Hv|Hv]; [congruence|]. unfold fu_update. rewrite Hv. destruct (v_pr v) eqn:Ep; [| | |congruence]; destruct (v_fam v) eqn:Ef.
    - destruct (tcp6_defined g n s v R So Ep) as [X|[X Y]]; [left; exact X|right; auto 10].
    - left. apply tcp4_defined; auto.
    - left. apply simple6_defined; auto; rewrite Ep; discriminate.
    - left. apply simple4_defined; auto; rewrite Ep; discriminate.
    - left. destruct (g_drop_info g); [apply Same|]. apply simple6_defined; auto; rewrite Ep; discriminate.
    - left. apply simple4_defined; auto; rewrite Ep; discriminate. }
  destruct (v_fam v) eqn:Ef.
  - destruct (prefix6_contains _ (v_saddr v)); [left; apply Same|]. destruct (negb _); [left; apply Same|]. cbn [bind]. destruct (v_err v); [left; apply Same|apply U; reflexivity].
  - destruct (Co (v_pr v) (fst (v_dst v)) (snd (v_dst v))) as (b & Eb). rewrite Eb. cbn [bind]. destruct (negb b); [left; apply Same|]. cbn [bind]. destruct (v_err v); [left; apply Same|apply U; reflexivity].
Qed.
Lemma steps_defined : forall g n s v, reachable_db s -> sound g n -> v_pr v <> OTHER -> v_err v = true \/ v_l4 v = v_pr v ->
  (exists o s' evs, steps23 g n s v = Ok (o, s', evs) /\ reachable_db s') \/
  (steps23 g n s v = UB /\ v_err v = false /\ v_fam v = V6 /\ v_pr v = TCP /\ trouble s (n_al n) (v_dst v)).
Proof.
  intros g n s v R So No Hv. destruct (fu_defined g n s v R So No Hv) as [(x & en & s' & evs & E & R')|(E & X)]; unfold steps23; rewrite E; cbn [bind]; [|right; auto]. left.
  destruct x; try (eexists _, _, _; split; [reflexivity|exact R']; fail).
  assert (B : exists b, find_bib s' v en = Ok b).
  { destruct en; cbn [find_bib]; [|eexists; reflexivity|eexists; reflexivity]. unfold bib_find. destruct (C15_lookup _ _ (reachable_table _ _ R' No)) as (L6 & L4 & _).
    destruct (v_fam v); [destruct (L6 (v_src v)) as [(-> & _)|(a & b & -> & _)]|destruct (L4 (v_dst v)) as [(-> & _)|(a & b & -> & _)]]; eexists; reflexivity. }
  destruct B as (b & B). unfold compute_out_tuple. rewrite B. cbn [bind]. destruct b as [[s6 s4]|]; [|eexists _, _, _; split; [reflexivity|exact R']].
  destruct (v_fam v); [destruct (rfc6052_6to4 _ _)|destruct (rfc6052_4to6 _ _)]; (eexists _, _, _; split; [reflexivity|exact R']).
Qed.

(** A packet is processed to an end, and the database is then again one that
    histories lead to (so the claims about those hold after any sequence of
    packets), unless it is a TCP packet from the IPv6 side, a packet to its
    source's peer is stored, and the address that packet was sent to is another
    node's by now (or memory is short).  Missing: that case ([C60_refuted]). *)
Theorem C60_defined_partial : forall g n n2 nm x1 x2 s k, reachable_db s -> sound g n -> sound g n2 ->
  (exists o s' evs, core_common g n n2 nm x1 x2 s k = Ok (o, s', evs) /\ reachable_db s') \/
  (core_common g n n2 nm x1 x2 s k = UB /\ k_fam k = V6 /\ exists a b, flow k = Some (TCP, a, b) /\ trouble s (n_al n) b).
Proof.
  intros g n n2 nm x1 x2 s k R S1 S2. unfold core_common.
  destruct (determine_in_tuple k) as [x v] eqn:Ek. destruct x, v as [v|]; try (left; eexists _, _, _; split; [reflexivity|exact R]; fail).
  assert (V : v_pr v <> OTHER /\ (v_err v = true \/ v_l4 v = v_pr v) /\ (v_err v = false -> v_pr v = TCP -> v_fam v = k_fam k /\ exists a, flow k = Some (TCP, a, v_dst v))).
  { unfold determine_in_tuple, icmp_err in Ek. unfold flow. destruct (k_l4 k).
    - injection Ek as <-. cbn. split; [discriminate|]. split; [auto|]. discriminate.
    - injection Ek as <-. cbn. split; [discriminate|]. split; [auto|]. eauto.
    - destruct (match k_fam k with V6 => is_icmp6_info ty | V4 => is_icmp4_info ty end); [injection Ek as <-; cbn; split; [discriminate|]; split; [auto|]; discriminate|].
      destruct (match k_fam k with V6 => is_icmp6_error ty | V4 => is_icmp4_error ty end); [|discriminate].
      destruct (in_l4 i) as [| |ty0 id0|]; try discriminate; try (injection Ek as <-; cbn; split; [discriminate|]; split; [auto|]; discriminate).
      destruct (match k_fam k with V6 => is_icmp6_error ty0 | V4 => is_icmp4_error ty0 end); [discriminate|]. injection Ek as <-; cbn; split; [discriminate|]; split; [auto|]; discriminate.
    - discriminate. }
  destruct V as (No & Hv & Hu). destruct (steps_defined g n s v R S1 No Hv) as [(o & s1 & e1 & E1 & R1)|(E1 & Y1 & Y2 & Y3 & Y)]; rewrite E1; cbn [bind].
  2:{ right. destruct (Hu Y1 Y3) as (Hf & a & Hfl). split; [reflexivity|]. split; [congruence|]. exists a, (v_dst v). auto. }
  destruct o as [f o|x]; [|left; eexists _, _, _; split; [reflexivity|exact R1]]. destruct x1; try (left; eexists _, _, _; split; [reflexivity|exact R1]; fail).
  assert (Hp : exists b, is_hairpin g n v o = Ok b) by (unfold is_hairpin; destruct (v_fam v); [apply S1|eexists; reflexivity]). destruct Hp as (b & Eb). rewrite Eb. cbn [bind].
  destruct b; [|left; eexists _, _, _; split; [reflexivity|exact R1]]. destruct nm; [|left; eexists _, _, _; split; [reflexivity|exact R1]].
  assert (F4 : v_fam v = V6) by (unfold is_hairpin in Eb; destruct (v_fam v); [reflexivity|discriminate]).
  destruct (steps_defined g n2 s1 (hairpin_view v o) R1 S2) as [(o2 & s2 & e2 & E2 & R2)|(_ & _ & X & _)]; [exact No|exact Hv| |cbn [hairpin_view v_fam] in X; rewrite F4 in X; discriminate].
  rewrite E2. cbn [bind]. left. destruct o2 as [f2 o2|x]; [destruct x2|]; (eexists _, _, _; split; [reflexivity|exact R2]).
Qed.
Print Assumptions C60_defined_partial.
Corollary C60_reachable : forall g n n2 nm x1 x2 s k o s' evs, reachable_db s -> sound g n -> sound g n2 -> core_common g n n2 nm x1 x2 s k = Ok (o, s', evs) -> reachable_db s'.
Proof.
  intros g n n2 nm x1 x2 s k o s' evs R S1 S2 E. destruct (C60_defined_partial g n n2 nm x1 x2 s k R S1 S2) as [(o' & s1 & e1 & E1 & R1)|(E1 & _)]; rewrite E in E1; [injection E1 as _ -> _; exact R1|discriminate].
Qed.
Print Assumptions C60_reachable.
