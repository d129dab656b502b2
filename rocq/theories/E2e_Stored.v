(** * C93: the packets a translator keeps are let go once, whatever octets come *)
Require Import Permutation.
Require Import Verif.Base Verif.Addr_Model Verif.Addr_Spec Verif.Addr_Properties Verif.Rtrie_Model Verif.Pool4_Model Verif.Fsm_Model Verif.Bib_Model
  Verif.Bib_Inv Verif.Bib_Find Verif.Bib_Add Verif.Bib_Ops Verif.Bib_Hist Verif.Bib_Spec Verif.Bib_Properties Verif.Bib_Life Verif.Nat64_Model Verif.Nat64_Spec Verif.Nat64_Properties Verif.Nat64_Errors Verif.Nat64_Safe Verif.Nat64_Pool4.
Require Import Verif.Csum_Model Verif.Csum_Spec Verif.Pkt_Model Verif.Pkt_Spec Verif.Pkt_Properties Verif.Hdr_Model Verif.Hdr_Spec Verif.Ext_Model Verif.Xlat_Model Verif.Xlat_Spec
  Verif.Xlat_Properties Verif.E2e_Model Verif.E2e_Spec Verif.E2e_Proofs Verif.E2e_Out Verif.E2e_Back Verif.E2e_Hairpin Verif.E2e_Properties Verif.E2e_Pool4 Verif.E2e_Cases Verif.Bib_Origin Verif.E2e_Life.
Local Ltac Zify.zify_post_hook ::= idtac.

(** ** What is claimed *)
(** One happening, seen from outside: the tables after it, what it let go or sent
    ([ev]), and which packet it kept.  A packet which is kept is said to be stolen;
    what is kept of a hairpinned packet is its IPv4 form, which the second
    environment names. *)
Definition see (s : db) (x : happening) : res (db * list ev * list Z) :=
  match x with
  | From6 g better n n2 nm w w2 mem m lin =>
    let! r := core6 g better n n2 nm w w2 s mem m lin in let '(r, s, evs) := r in Ok (s, evs, match r with Refuses Stolen => [n_skb n2] | _ => [] end)
  | From4 g better n w mem m lin =>
    let! r := core4 g better n w s mem m lin in let '(r, s, evs) := r in Ok (s, evs, match r with Refuses Stolen => [n_skb n] | _ => [] end)
  | Table c p o => let! r := step c p (get_table s p) o in let '(_, t, evs) := r in Ok (set_table s p t, evs, [])
  end.
Fixpoint watch (s : db) (h : list happening) : res (db * list ev * list Z) :=
  match h with
  | [] => Ok (s, [], [])
  | x :: h' => let! a := see s x in let '(s, e, k) := a in let! b := watch s h' in let '(s, e', k') := b in Ok (s, e ++ e', k ++ k')
  end.
Definition holds (s : db) (k : Z) : Prop := exists pr, stored_in (get_table s pr) k.

(** ** Proofs *)
Definition stowed (g : Z -> Z) (s : db) : Z := wl g (d_udp s) + wq g (d_udp s) + (wl g (d_tcp s) + wq g (d_tcp s)) + (wl g (d_icmp s) + wq g (d_icmp s)).
Definition balance (k : list Z) (s s' : db) (evs : list ev) : Prop := forall g, stowed g s + sumz g k = stowed g s' + sumz (we g) evs.
Lemma balance_id s : balance [] s s [].
Proof. intros g. cbn. lia. Qed.
Lemma balance_app : forall k k' s s1 s' e e', balance k s s1 e -> balance k' s1 s' e' -> balance (k ++ k') s s' (e ++ e').
Proof. intros k k' s s1 s' e e' A B g. rewrite !sumz_app. specialize (A g). specialize (B g). lia. Qed.
Lemma balance_step : forall s c p o x t evs, p <> OTHER -> reachable_db s -> wf_op o -> step c p (get_table s p) o = Ok (x, t, evs) -> balance (arrived o x) s (set_table s p t) evs.
Proof.
  intros s c p o x t evs No R W E g. destruct (reach_inv _ _ (reachable_table _ _ R No)) as [I _].
  destruct (step_ok c p o _ W I) as [(E1 & _)|(x1 & t1 & e1 & E1 & [_ _ F _ _ _])]; rewrite E1 in E; [discriminate|]. injection E as <- <- <-. specialize (F g). unfold stowed. destruct p; try congruence; cbn [set_table get_table d_udp d_tcp d_icmp] in *; lia.
Qed.
Lemma tcp6_keeps_not : forall c t d s6 d6 d4 g now al v en t' evs, bib_add_tcp6 c t d s6 d6 d4 g now al = Ok (v, en, t', evs) -> v <> VStolen.
Proof.
  intros c t d s6 d6 d4 g now al v en t' evs H. unfold bib_add_tcp6 in H. destruct (alloc_bib_session al) as [a al1]. destruct a; try (injection H as <- _ _ _; discriminate).
  unbind H r E. destruct r as [[e f] tt]. unbind H x Ex. destruct x as [[[v0 en0] t0] e0]. unbind H dd Ed. injection H as <- _ _ _.
  destruct e; [|injection Ex as <- _ _ _; discriminate]. destruct (f_sess f) as [sid|].
  - unbind Ex y Ey. destruct y as [[[ok t1] e1] al2]. destruct ok; [unbind Ex z Ez|]; injection Ex as <- _ _ _; discriminate.
  - destruct (sg_syn g); [unbind Ex y Ey; injection Ex as <- _ _ _; discriminate|]. destruct (f_bib f); [unbind Ex y Ey|]; injection Ex as <- _ _ _; discriminate.
Qed.

Lemma balance23 : forall g n s v o s' evs, reachable_db s -> (v_fam v = V6 -> usable4 g n) -> v_pr v <> OTHER -> v_err v = true \/ v_l4 v = v_pr v -> steps23 g n s v = Ok (o, s', evs) ->
  balance (match o with Refused Stolen => [n_skb n] | _ => [] end) s s' evs /\ (v_fam v = V6 -> o <> Refused Stolen).
Proof.
  intros g n s v o s' evs R U No El H. unfold steps23 in H. unbind H r E. destruct r as [[[x en] s1] e1].
  assert (Q : balance (match x with Stolen => [n_skb n] | _ => [] end) s s1 e1 /\ (v_fam v = V6 -> x <> Stolen)).
  { clear H. unfold filtering_and_updating in E. unbind E a Ea. destruct a as [y|].
    { injection E as <- _ <- <-. assert (y <> Stolen).
      { unfold fu_admit in Ea. destruct (v_fam v); [destruct (prefix6_contains _ _); [|destruct (negb _); [|destruct (v_err v)]]; try discriminate Ea; injection Ea as <-; discriminate|]. unbind Ea b Eb. destruct (negb b); [|destruct (v_err v)]; try discriminate Ea; injection Ea as <-; discriminate. }
      split; [|auto]. destruct y; try congruence; apply balance_id. }
    assert (Er : v_err v = false) by (destruct (v_err v) eqn:X; [|reflexivity]; unfold fu_admit in Ea; rewrite X in Ea; destruct (v_fam v); [destruct (prefix6_contains _ _); [discriminate|]; destruct (negb _); discriminate|]; unbind Ea b Eb; destruct (negb b); discriminate).
    clear Ea. destruct El as [X|El]; [congruence|]. unfold fu_update in E.
    assert (Dr : forall x en s1 e1, Ok (Dropped, NoEntry, s, @nil ev) = Ok (x, en, s1, e1) -> balance (match x with Stolen => [n_skb n] | _ => [] end) s s1 e1 /\ (v_fam v = V6 -> x <> Stolen)).
    { intros x' en' s1' e1' [= <- _ <- <-]. split; [apply balance_id|discriminate]. }
    assert (W6 : forall d dst4 sg, v_fam v = V6 -> mask_domain_find (g_pool4 g) (v_pr v) (n_mark n) (n_hash n) (n_eph n) (n_route n) (n_kro n) = Ok (Domain d) ->
      wf_op (OAdd6 d (v_src v) (v_dst v) dst4 (n_now n) (n_al n)) /\ wf_op (OTcp6 d (v_src v) (v_dst v) dst4 sg (n_now n) (n_al n))).
    { intros d dst4 sg Ef Em. destruct (U Ef _ _ Em) as (masks & Of & _). split; exists masks; exact Of. }
    assert (A6 : v_fam v = V6 -> v_pr v <> TCP -> ipv6_simple g n s v = Ok (x, en, s1, e1) -> balance (match x with Stolen => [n_skb n] | _ => [] end) s s1 e1 /\ (v_fam v = V6 -> x <> Stolen)).
    { clear E. intros Ef Np E. unfold ipv6_simple in E. destruct (xlat_dst_6to4 g v) as [d4|]; [|exact (Dr _ _ _ _ E)]. unbind E f Em. destruct f as [d|]; [|exact (Dr _ _ _ _ E)].
      unbind E r Eb. destruct r as [[[e en2] t] e2]. injection E as <- _ <- <-.
      assert (B : balance [] s (set_table s (v_pr v) t) e2).
      { refine (balance_step s (g_cfg g) (v_pr v) (OAdd6 d (v_src v) (v_dst v) d4 (n_now n) (n_al n)) (RRc e en2) t e2 No R (proj1 (W6 d d4 (v_seg v) Ef Em)) _). cbn [step]. destruct (v_pr v); try congruence; rewrite Eb; reflexivity. }
      split; [destruct e as [|[]]; exact B|destruct e as [|[]]; discriminate]. }
    assert (A4 : v_fam v = V4 -> v_pr v <> TCP -> ipv4_simple g n s v = Ok (x, en, s1, e1) -> balance (match x with Stolen => [n_skb n] | _ => [] end) s s1 e1 /\ (v_fam v = V6 -> x <> Stolen)).
    { clear E. intros Ef Np E. unfold ipv4_simple in E. destruct (xlat_src_4to6 g v) as [d6|]; [|exact (Dr _ _ _ _ E)].
      unbind E r Eb. destruct r as [[e en2] t]. injection E as <- _ <- <-.
      assert (B : balance [] s (set_table s (v_pr v) t) []).
      { refine (balance_step s (g_cfg g) (v_pr v) (OAdd4 (v_dst v) (v_src v) d6 (n_now n) (n_al n)) (RRc e en2) t [] No R Logic.I _). cbn [step]. destruct (v_pr v); try congruence; rewrite Eb; reflexivity. }
      split; [destruct e as [|[]]; exact B|destruct e as [|[]]; discriminate]. }
    destruct (v_l4 v) eqn:El4; destruct (v_fam v) eqn:Ef; try (exact (Dr _ _ _ _ E)); try (apply (A6 eq_refl ltac:(congruence) E)); try (apply (A4 eq_refl ltac:(congruence) E)).
    - unfold ipv6_tcp in E. destruct (xlat_dst_6to4 g v) as [d4|]; [|exact (Dr _ _ _ _ E)]. unbind E f Em. destruct f as [d|]; [|exact (Dr _ _ _ _ E)].
      unbind E r Eb. destruct r as [[[e en2] t] e2]. injection E as <- _ <- <-. pose proof (tcp6_keeps_not _ _ _ _ _ _ _ _ _ _ _ _ _ Eb) as Nk.
      assert (B : balance [] s (set_table s TCP t) e2).
      { refine (balance_step s (g_cfg g) TCP (OTcp6 d (v_src v) (v_dst v) d4 (v_seg v) (n_now n) (n_al n)) (RVerdict e en2) t e2 ltac:(discriminate) R (proj2 (W6 d d4 (v_seg v) eq_refl Em)) _). cbn [step get_table]. rewrite Eb. reflexivity. }
      split; [destruct e; try congruence; exact B|destruct e; try congruence; discriminate].
    - unfold ipv4_tcp in E. destruct (xlat_src_4to6 g v) as [d6|]; [|exact (Dr _ _ _ _ E)].
      unbind E r Eb. destruct r as [[[e en2] t] e2]. injection E as <- _ <- <-. split; [|discriminate].
      pose proof (balance_step s (g_cfg g) TCP (OTcp4 (v_dst v) (v_src v) d6 (v_seg v) (n_skb n) (n_now n) (n_al n)) (RVerdict e en2) t e2 ltac:(discriminate) R Logic.I) as B. cbn [step get_table] in B. rewrite Eb in B. specialize (B eq_refl).
      destruct e; exact B.
    - destruct (g_drop_info g); [exact (Dr _ _ _ _ E)|]. exact (A6 eq_refl ltac:(congruence) E). }
  destruct Q as [Q N]. destruct x; try (injection H as <- <- <-; split; [exact Q|intros X Y; first [discriminate Y|exact (N X eq_refl)]]).
  unbind H o1 Eo. assert (Y : match o1 with (Stolen, _) => False | _ => True end).
  { unfold compute_out_tuple in Eo. unbind Eo b Eb. destruct b as [[]|]; [|injection Eo as <-; exact Logic.I]. destruct (v_fam v); [destruct (rfc6052_6to4 _ _)|destruct (rfc6052_4to6 _ _)]; injection Eo as <-; exact Logic.I. }
  destruct o1 as [[] [ot|]]; try (destruct Y); injection H as <- <- <-; (split; [exact Q|discriminate]).
Qed.

Lemma tuple_keeps_not : forall k x v, determine_in_tuple k = (x, v) -> x <> Stolen.
Proof.
  intros k x v H. unfold determine_in_tuple, icmp_err in H.
  repeat match type of H with (match ?c with _ => _ end) = _ => destruct c end; injection H as <- _; discriminate.
Qed.
Lemma see_occur : forall s x s' e k, see s x = Ok (s', e, k) -> occur s x = Ok s'.
Proof. intros s [] s' e k H; cbn [see occur] in *; unbind H r E; destruct r as [[r s1] e1]; rewrite E; cbn [bind]; injection H as <- _ _; reflexivity. Qed.
Lemma see_balance : forall s x s' e k, sound_db s -> fair x -> see s x = Ok (s', e, k) -> balance k s s' e.
Proof.
  intros s [g better n n2 nm w w2 mem m lin|g better n w mem m lin|c p o] s' e0 k0 Sd Fa H; cbn [see fair] in *; pose proof (proj1 Sd) as R.
  - destruct Fa as (F & U & P6). unbind H r E. destruct r as [[r s1] evs]. injection H as <- <- <-. unfold core6 in E. destruct (pkt_init_ipv6 mem m lin) as [[mt l]|b|]; [|injection E as <- <- <-; apply balance_id|discriminate].
    unbind E k Ek. destruct (determine_in_tuple k) as [x ov] eqn:Ev.
    pose proof (tuple_keeps_not _ _ _ Ev) as Nx.
    destruct x; try (injection E as <- <- <-; apply balance_id); try congruence. destruct ov as [v|]; [|injection E as <- <- <-; apply balance_id].
    destruct (view_typed _ _ _ _ _ _ F Ek Ev) as (Vf & Vo & Ve & Vt). unbind E r1 Er. destruct r1 as [[r1 s2] evs2].
    destruct (balance23 _ _ _ _ _ _ _ R (fun _ => U) Vo Ve Er) as [B Nk]. specialize (Nk Vf).
    assert (S2 : sound_db s2). { refine (sound23 g n s v _ _ _ Sd Vo Ve _ Er). intros X. rewrite Vf. split; [exact U|]. exact (proj1 (Vt X)). }
    assert (B0 : balance [] s s2 evs2) by (destruct r1 as [|[]]; try congruence; exact B). clear B.
    destruct r1 as [f ot|y]; [|injection E as <- <- <-; destruct y; try congruence; exact B0]. destruct (xlat64 (env64_of w ot) l m mt) as [out|j|j y i|] eqn:Ex; try discriminate; try (injection E as <- <- <-; exact B0).
    unbind E h Eh. destruct h; [|injection E as <- <- <-; exact B0]. destruct nm; [|injection E as <- <- <-; exact B0]. unbind E r3 Er3. destruct r3 as [[r3 s3] evs3].
    destruct (balance23 g n2 s2 (hairpin_view v ot) _ _ _ (proj1 S2) ltac:(unfold hairpin_view; cbn [v_fam]; rewrite Vf; discriminate) Vo Ve Er3) as [B3 _].
    pose proof (balance_app _ _ _ _ _ _ _ B0 B3) as B. cbn [app] in B. destruct r3 as [f2 o2|y]; [|injection E as <- <- <-; destruct y; exact B].
    destruct (step4_46 _ _ _ _ _ _ _ _ _) as [[| | |]|]; try discriminate; injection E as <- <- <-; exact B.
  - unbind H r E. destruct r as [[r s1] evs]. injection H as <- <- <-. unfold core4 in E. destruct (pkt_init_ipv4 mem m lin) as [[mt l]|b|]; [|injection E as <- <- <-; apply balance_id|discriminate].
    unbind E k Ek. destruct (determine_in_tuple k) as [x ov] eqn:Ev.
    pose proof (tuple_keeps_not _ _ _ Ev) as Nx.
    destruct x; try (injection E as <- <- <-; apply balance_id); try congruence. destruct ov as [v|]; [|injection E as <- <- <-; apply balance_id].
    destruct (view_typed _ _ _ _ _ _ Fa Ek Ev) as (Vf & Vo & Ve & Vt). unbind E r1 Er. destruct r1 as [[r1 s2] evs2].
    destruct (balance23 _ _ _ _ _ _ _ R ltac:(rewrite Vf; discriminate) Vo Ve Er) as [B _].
    destruct r1 as [f ot|y]; [|injection E as <- <- <-; destruct y; exact B].
    destruct (step4_46 _ _ _ _ _ _ _ _ _) as [[| | |]|]; try discriminate; injection E as <- <- <-; exact B.
  - destruct Fa as (No & Fo). unbind H r E. destruct r as [[r t] evs]. injection H as <- <- <-.
    pose proof (balance_step s c p o r t evs No R ltac:(destruct o; cbn in *; tauto) E) as B. replace (arrived o r) with (@nil Z) in B; [exact B|]. destruct o; cbn in *; tauto.
Qed.
Lemma watch_ok : forall h s s' e k, sound_db s -> Forall fair h -> watch s h = Ok (s', e, k) -> sound_db s' /\ balance k s s' e /\ live s h = Ok s'.
Proof.
  induction h as [|x h IH]; intros s s' e k Sd F H; cbn [watch live] in *; [injection H as <- <- <-; split; [exact Sd|split; [apply balance_id|reflexivity]]|].
  unbind H a E. destruct a as [[s1 e1] k1]. unbind H b E2. destruct b as [[s2 e2] k2]. injection H as <- <- <-. apply Forall_cons_iff in F. destruct F as [F1 F2].
  pose proof (see_occur _ _ _ _ _ E) as O. destruct (IH _ _ _ _ (sound_occur _ _ _ Sd F1 O) F2 E2) as (S2 & B2 & L2). rewrite O. cbn [bind]. split; [exact S2|]. split; [|exact L2].
  exact (balance_app _ _ _ _ _ _ _ (see_balance _ _ _ _ _ Sd F1 E) B2).
Qed.
Definition held (s : db) : list Z := held_packets (d_udp s) ++ held_packets (d_tcp s) ++ held_packets (d_icmp s).
Lemma held_stowed g s : sumz g (held s) = stowed g s.
Proof. unfold held, stowed. rewrite !sumz_app, !held_sum. lia. Qed.
Lemma held_holds s k : reachable_db s -> In k (held s) <-> holds s k.
Proof.
  intros R. pose proof R as (Ru & Rt & _ & Ri). destruct (reach_inv _ _ Ru) as [Iu _]. destruct (reach_inv _ _ Rt) as [It _]. destruct (reach_inv _ _ Ri) as [Ii _].
  unfold held, holds. rewrite !in_app_iff, !held_in by assumption. split.
  - intros [X|[X|X]]; [exists UDP|exists TCP|exists ICMP]; exact X.
  - intros ([| | |] & X); cbn [get_table] in X; try tauto. destruct X as [(j & u & X & _)|(q & [] & _)]. discriminate X.
Qed.

(** Whatever comes, from the start: the packets kept so far are those held now and
    those let go, each as many times as it was kept. *)
Theorem C93_kept : forall h s evs kept, Forall fair h -> watch init_db h = Ok (s, evs, kept) ->
  exists here, (forall k, In k here <-> holds s k) /\ Permutation kept (here ++ released evs).
Proof.
  intros h s evs kept F H. destruct (watch_ok _ _ _ _ _ sound_init F H) as (S' & B & _). exists (held s). split; [intros k; apply held_holds; exact (proj1 S')|].
  apply (Permutation_count_occ Z.eq_dec). intros k. specialize (B (ind k)). rewrite count_occ_app. apply Nat2Z.inj. rewrite Nat2Z.inj_add, <- !count_ind, held_stowed, released_sum. change (stowed (ind k) init_db) with 0 in B. lia.
Qed.
Print Assumptions C93_kept.
(** No packet is let go twice, none is touched after that, none that was not kept is
    let go, and none is forgotten. *)
Theorem C93_once : forall h s evs kept, Forall fair h -> watch init_db h = Ok (s, evs, kept) -> NoDup kept ->
  NoDup (released evs) /\ (forall k, In k (released evs) -> In k kept /\ ~ holds s k) /\ forall k, In k kept -> holds s k \/ In k (released evs).
Proof.
  intros h s evs kept F H N. destruct (C93_kept h s evs kept F H) as (here & Hh & P). pose proof (Permutation_NoDup P N) as N'. split; [|split].
  - clear - N'. induction here as [|x l IH]; [exact N'|]. inversion N'; auto.
  - intros k Hk. split; [apply (Permutation_in k (Permutation_sym P)); apply in_or_app; right; exact Hk|]. intros Hs. apply Hh in Hs. clear - N' Hk Hs.
    induction here as [|x l IH]; [destruct Hs|]. inversion N' as [|y m X1 X2]; subst. destruct Hs as [->|Hs]; [apply X1; apply in_or_app; right; exact Hk|auto].
  - intros k Hk. apply (Permutation_in k P) in Hk. apply in_app_or in Hk. destruct Hk as [X|X]; [left; apply Hh; exact X|right; exact X].
Qed.
Print Assumptions C93_once.

(** One happening, in any life: what it changes in the number of packets is what it says. *)
Theorem C93_step : forall h s x s' evs kept, Forall fair h -> live init_db h = Ok s -> fair x -> see s x = Ok (s', evs, kept) ->
  exists here there, (forall k, In k here <-> holds s k) /\ (forall k, In k there <-> holds s' k) /\ Permutation (kept ++ here) (there ++ released evs).
Proof.
  intros h s x s' evs kept F L Fx H. pose proof (live_sound _ _ _ sound_init F L) as Sd. pose proof (sound_occur _ _ _ Sd Fx (see_occur _ _ _ _ _ H)) as Sd'. pose proof (see_balance _ _ _ _ _ Sd Fx H) as B.
  exists (held s), (held s'). split; [intros k; apply held_holds; exact (proj1 Sd)|]. split; [intros k; apply held_holds; exact (proj1 Sd')|].
  apply (Permutation_count_occ Z.eq_dec). intros k. specialize (B (ind k)). rewrite !count_occ_app. apply Nat2Z.inj. rewrite !Nat2Z.inj_add, <- !count_ind, !held_stowed, released_sum. lia.
Qed.
Print Assumptions C93_step.

(** A SYN from 192.0.2.33 to an address of pool4 which nobody has is kept; the sender
    repeats it, and the repetition is dropped; nobody opens the connection from the
    other side, and after the time for that an ICMP error is sent about the SYN. *)
Definition stray : list Z := [69;0;0;40; 0;9;0;0; 64;6;0;0; 192;0;2;33; 192;0;2;1; 0;53;19;138; 0;0;0;1; 0;0;0;2; 80;2;16;0; 0;0;0;0].
Definition env_skb (skb now : Z) : env := Env [] 0 skb 1002 2 None KStay now [].
Definition strays : list happening := [From4 nat64 true (env_skb 7 0) ex_env46 true stray 40; From4 nat64 true (env_skb 8 100) ex_env46 true stray 40; Table conf TCP (OClean 5999 [])].
Example C93_case : Forall fair (strays ++ [Table conf TCP (OClean 6000 [])])
  /\ match watch init_db strays with Ok (s, evs, kept) => evs = [] /\ kept = [7] /\ stored_in (d_tcp s) 7 | _ => False end
  /\ match watch init_db (strays ++ [Table conf TCP (OClean 6000 [])]) with Ok (s, evs, kept) => evs = [EvIcmp 7] /\ kept = [7] | _ => False end.
Proof.
  split; [repeat constructor; try discriminate; cbn; octets|]. split; vm_compute; repeat split. right. eexists. split; [left; reflexivity|reflexivity].
Qed.
