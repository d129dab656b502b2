(** * C88: addresses in the tables come from somewhere; the whole life of a stateful
    translator, from its start, on octets *)
Require Import Verif.Base Verif.Addr_Model Verif.Addr_Spec Verif.Addr_Properties Verif.Rtrie_Model Verif.Pool4_Model Verif.Fsm_Model Verif.Bib_Model
  Verif.Bib_Inv Verif.Bib_Find Verif.Bib_Add Verif.Bib_Hist Verif.Bib_Spec Verif.Bib_Properties Verif.Nat64_Model Verif.Nat64_Spec Verif.Nat64_Properties Verif.Nat64_Errors Verif.Nat64_Safe Verif.Nat64_Pool4.
Require Import Verif.Csum_Model Verif.Csum_Spec Verif.Csum_Proofs Verif.Csum_Properties Verif.Pkt_Model Verif.Pkt_Spec Verif.Pkt_Proofs Verif.Pkt_Properties
  Verif.Hdr_Model Verif.Hdr_Spec Verif.Hdr_Proofs Verif.Hdr_Properties Verif.Ext_Model Verif.Ext_Spec Verif.Xlat_Model Verif.Xlat_Spec Verif.Xlat_Proofs Verif.Xlat_Proofs46
  Verif.Xlat_Properties Verif.Icmperr_Spec Verif.Icmperr_Properties Verif.Trip_Spec Verif.Trip_Proofs Verif.E2e_Model Verif.E2e_Spec Verif.E2e_Proofs Verif.E2e_Out Verif.E2e_Back Verif.E2e_Hairpin
  Verif.E2e_Properties Verif.E2e_Pool4 Verif.E2e_Cases Verif.Bib_Origin.
Local Ltac Zify.zify_post_hook ::= idtac.

(** ** What happens to a translator: packets come, and the tables are operated on by
    the timer (OClean), the operator (OStatic, ORm, ORmRange, OFlush) and other
    instances (OSync). *)
Inductive happening :=
| From6 (g : xconf) (better : bool) (n n2 : env) (nm : bool) (w : env64) (w2 : env46) (mem : bool) (m : list Z) (lin : nat)
| From4 (g : xconf) (better : bool) (n : env) (w : env46) (mem : bool) (m : list Z) (lin : nat)
| Table (c : cfg) (p : proto) (o : op).
Definition occur (s : db) (x : happening) : res db :=
  match x with
  | From6 g better n n2 nm w w2 mem m lin => let! r := core6 g better n n2 nm w w2 s mem m lin in let '(_, s, _) := r in Ok s
  | From4 g better n w mem m lin => let! r := core4 g better n w s mem m lin in let '(_, s, _) := r in Ok s
  | Table c p o => let! r := step c p (get_table s p) o in let '(_, t, _) := r in Ok (set_table s p t)
  end.
Fixpoint live (s : db) (h : list happening) : res db :=
  match h with [] => Ok s | x :: h' => let! s := occur s x in live s h' end.

(** Packets are any octets.  Operators and other instances come with addresses and
    ports of their C types, and the latter with states that are TCP's (C57). *)
Definition fair (x : happening) : Prop :=
  match x with
  | From6 g _ n n2 _ _ _ _ m _ => Forall is_u8 m /\ usable4 g n /\ pool6_ok g
  | From4 _ _ _ _ _ m _ => Forall is_u8 m
  | Table _ p o => p <> OTHER /\
      match o with
      | OSync e _ _ => typed6 (e_src6 e) /\ typed4 (e_src4 e) /\ valid_state (e_state e)
      | OStatic s6 s4 _ => typed6 s6 /\ typed4 s4
      | OClean _ _ | ORm _ _ | ORmRange _ _ _ | OFlush => True
      | _ => False
      end
  end.

(** ** Proofs *)
Definition sound_db (s : db) : Prop := reachable_db s /\ forall pr, good typed6 typed4 (get_table s pr).
Lemma sound_typed s : sound_db s -> reachable_db s /\ typed_db s.
Proof. intros [R G]. split; [exact R|]. intros pr s6 s4 st (i & b & E & <- & <- & _). exact (proj1 (G pr) i b E). Qed.
Lemma sound_init : sound_db init_db.
Proof. split; [apply init_ok|]. intros [| | |]; apply good_init. Qed.
Lemma sound_step : forall s c p o x t evs, p <> OTHER -> sound_db s -> wf_op o -> sync_ok o -> gives typed6 typed4 o -> step c p (get_table s p) o = Ok (x, t, evs) -> sound_db (set_table s p t).
Proof.
  intros s c p o x t evs No [R G] W S V E. split.
  - pose proof (one_step _ _ _ _ _ _ _ W (reachable_table _ _ R No) E) as R'. destruct (proto_eq_dec p TCP) as [->|Np].
    + destruct R as (Ru & Rt & St & Ri). destruct (reach_inv _ _ Rt) as [I _]. cbn [get_table] in *.
      pose proof (step_P _ _ _ states_ok _ _ _ _ W ltac:(apply states_closed; exact S) I St E) as S'. unfold reachable_db. cbn [set_table d_udp d_tcp d_icmp]. auto.
    + apply reachable_set; assumption.
  - pose proof (good_step _ _ _ _ _ _ _ _ _ V (G p) E) as G'. intros pr. destruct p, pr; try congruence; cbn [set_table get_table d_udp d_tcp d_icmp] in *; try exact G'; try apply good_init; first [exact (G UDP)|exact (G TCP)|exact (G ICMP)].
Qed.
Lemma usable4_gives : forall g n pr d, usable4 g n -> mask_domain_find (g_pool4 g) pr (n_mark n) (n_hash n) (n_eph n) (n_route n) (n_kro n) = Ok (Domain d) -> exists masks, offers d masks /\ forall a, In a (map fst masks) -> typed4 a.
Proof. intros g n pr d U E. exact (U pr d E). Qed.

Lemma sound23 : forall g n s v o s' evs, sound_db s -> v_pr v <> OTHER -> v_err v = true \/ v_l4 v = v_pr v ->
  (v_err v = false -> match v_fam v with V6 => usable4 g n /\ typed6 (v_src v) | V4 => v_pr v = TCP -> typed4 (v_dst v) end) ->
  steps23 g n s v = Ok (o, s', evs) -> sound_db s'.
Proof.
  intros g n s v o s' evs Sd No El Ht H. destruct (v_err v) eqn:Er.
  { destruct (steps23_error _ _ _ _ _ _ _ Er H) as [-> _]. exact Sd. }
  destruct El as [X|El]; [discriminate|]. specialize (Ht eq_refl).
  unfold steps23 in H. unbind H r E. destruct r as [[[x en] s1] evs1].
  assert (S1 : sound_db s1).
  { clear H. unfold filtering_and_updating in E. unbind E a Ea. destruct a as [y|]; [injection E as _ _ <- _; exact Sd|]. clear Ea. unfold fu_update in E.
    assert (T6 : forall d dst4, v_fam v = V6 -> mask_domain_find (g_pool4 g) (v_pr v) (n_mark n) (n_hash n) (n_eph n) (n_route n) (n_kro n) = Ok (Domain d) ->
      gives typed6 typed4 (OAdd6 d (v_src v) (v_dst v) dst4 (n_now n) (n_al n))).
    { intros d dst4 Ef Em. rewrite Ef in Ht. destruct Ht as [U T]. split; [exact T|]. exact (U _ _ Em). }
    assert (W6 : forall d dst4, gives typed6 typed4 (OAdd6 d (v_src v) (v_dst v) dst4 (n_now n) (n_al n)) -> wf_op (OAdd6 d (v_src v) (v_dst v) dst4 (n_now n) (n_al n))).
    { intros d dst4 (_ & masks & X & _). exists masks. exact X. }
    assert (A6 : forall x en s1 evs1, v_fam v = V6 -> v_pr v <> TCP -> ipv6_simple g n s v = Ok (x, en, s1, evs1) -> sound_db s1).
    { clear E. intros x' en' s1' evs1' Ef Np E. unfold ipv6_simple in E. destruct (xlat_dst_6to4 g v) as [d4|]; [|injection E as _ _ <- _; exact Sd]. unbind E f Em. destruct f as [d|]; [|injection E as _ _ <- _; exact Sd].
      unbind E r Eb. destruct r as [[[e en2] t] e2]. injection E as _ _ <- _. pose proof (T6 d d4 Ef Em) as V.
      refine (sound_step s (g_cfg g) (v_pr v) (OAdd6 d (v_src v) (v_dst v) d4 (n_now n) (n_al n)) (RRc e en2) t e2 No Sd (W6 _ _ V) Logic.I V _).
      cbn [step]. destruct (v_pr v); try congruence; rewrite Eb; reflexivity. }
    assert (A4 : forall x en s1 evs1, v_pr v <> TCP -> ipv4_simple g n s v = Ok (x, en, s1, evs1) -> sound_db s1).
    { clear E. intros x' en' s1' evs1' Np E. unfold ipv4_simple in E. destruct (xlat_src_4to6 g v) as [d6|]; [|injection E as _ _ <- _; exact Sd].
      unbind E r Eb. destruct r as [[e en2] t]. injection E as _ _ <- _.
      refine (sound_step s (g_cfg g) (v_pr v) (OAdd4 (v_dst v) (v_src v) d6 (n_now n) (n_al n)) (RRc e en2) t [] No Sd Logic.I Logic.I Logic.I _).
      cbn [step]. destruct (v_pr v); try congruence; rewrite Eb; reflexivity. }
    destruct (v_l4 v) eqn:El4; rewrite <- El in *; destruct (v_fam v) eqn:Ef.
    all: try (apply (A6 _ _ _ _ eq_refl ltac:(discriminate) E)).
    all: try (apply (A4 _ _ _ _ ltac:(discriminate) E)).
    all: try (injection E as _ _ <- _; exact Sd).
    - unfold ipv6_tcp in E. rewrite <- El in E. destruct (xlat_dst_6to4 g v) as [d4|]; [|injection E as _ _ <- _; exact Sd]. unbind E f Em. destruct f as [d|]; [|injection E as _ _ <- _; exact Sd].
      unbind E r Eb. destruct r as [[[e en2] t] e2]. injection E as _ _ <- _. pose proof (T6 d d4 eq_refl Em) as V. pose proof (W6 _ _ V) as W.
      refine (sound_step s (g_cfg g) TCP (OTcp6 d (v_src v) (v_dst v) d4 (v_seg v) (n_now n) (n_al n)) (RVerdict e en2) t e2 ltac:(discriminate) Sd W Logic.I V _).
      cbn [step get_table]. rewrite Eb. reflexivity.
    - unfold ipv4_tcp in E. destruct (xlat_src_4to6 g v) as [d6|]; [|injection E as _ _ <- _; exact Sd].
      unbind E r Eb. destruct r as [[[e en2] t] e2]. injection E as _ _ <- _.
      refine (sound_step s (g_cfg g) TCP (OTcp4 (v_dst v) (v_src v) d6 (v_seg v) (n_skb n) (n_now n) (n_al n)) (RVerdict e en2) t e2 ltac:(discriminate) Sd Logic.I Logic.I (Ht eq_refl) _).
      cbn [step get_table]. rewrite Eb. reflexivity.
    - destruct (g_drop_info g); [injection E as _ _ <- _; exact Sd|]. exact (A6 _ _ _ _ eq_refl ltac:(discriminate) E). }
  destruct x; try (injection H as _ <- _; exact S1). unbind H o1 Eo. destruct o1 as [[] [ot|]]; injection H as _ <- _; exact S1.
Qed.

Lemma be16_u16 m o : Forall is_u8 m -> is_u16 (be16 m o).
Proof. intros F. rewrite be16_word. apply word_u16. exact F. Qed.
Lemma be32_u32 m o : Forall is_u8 m -> is_u32 (be32 m o).
Proof. intros F. unfold be32. pose proof (be16_u16 m o F). pose proof (be16_u16 m (o + 2) F). unfold is_u16, is_u32 in *. lia. Qed.
Lemma be128_u128 m o : Forall is_u8 m -> is_u128 (be128 m o).
Proof.
  intros F. unfold be128, is_u128. pose proof (be_of_bound (firstn 16 (skipn o m)) (firstn_u8 _ _ (skipn_u8 _ _ F))) as X. split; [apply X|]. eapply Z.lt_le_trans; [apply X|].
  change (2^128) with (256 ^ 16). apply Z.pow_le_mono_r; [lia|]. rewrite firstn_length. lia.
Qed.

(** What a packet's view is made of *)
Definition typed_fam (f : fam) (a : ta) : Prop := match f with V6 => typed6 a | V4 => typed4 a end.
Lemma view_typed : forall f l m mt k v, Forall is_u8 m -> fields_at f l m mt = Ok k -> determine_in_tuple k = (Continue, Some v) ->
  v_fam v = f /\ v_pr v <> OTHER /\ (v_err v = true \/ v_l4 v = v_pr v) /\ (v_err v = false -> typed_fam f (v_src v) /\ typed_fam f (v_dst v)).
Proof.
  intros f l m mt k v F E D. unfold fields_at in E. unbind E u Eu. unbind E h Eh. injection E as Ek.
  assert (Kf : k_fam k = f /\ k_l4 k = h) by (subst k; destruct f; split; reflexivity). destruct Kf as [Kf Kh].
  assert (Ka : forall p q, is_u16 p -> is_u16 q -> typed_fam f (k_src k, p) /\ typed_fam f (k_dst k, q)).
  { intros p q Hp Hq. subst k. destruct f; cbn [k_src k_dst typed_fam]; unfold typed6, typed4; cbn [fst snd]; [split; (split; [apply be128_u128; exact F|assumption])|split; (split; [apply be32_u32; exact F|assumption])]. }
  unfold determine_in_tuple in D. rewrite Kh, Kf in D. destruct (l4p mt).
  - unbind Eh p Ep. unbind Eh u2 Eu2. injection Eh as <-. unfold ports_at in Ep. unbind Ep u3 Eu3. injection Ep as <-. injection D as <-. cbn. split; [first [exact Kf|reflexivity]|]. split; [discriminate|]. split; [right; reflexivity|]. intros _. apply Ka; apply be16_u16; exact F.
  - unbind Eh p Ep. injection Eh as <-. unfold ports_at in Ep. unbind Ep u3 Eu3. injection Ep as <-. injection D as <-. cbn. split; [first [exact Kf|reflexivity]|]. split; [discriminate|]. split; [right; reflexivity|]. intros _. apply Ka; apply be16_u16; exact F.
  - unbind Eh u2 Eu2. destruct (match f with V6 => is_icmp6_info (byte m (l4off mt)) | V4 => is_icmp4_info (byte m (l4off mt)) end) eqn:Ei.
    + unbind Eh u3 Eu3. injection Eh as <-. rewrite Ei in D. injection D as <-. cbn. split; [first [exact Kf|reflexivity]|]. split; [discriminate|]. split; [right; reflexivity|]. intros _. apply Ka; apply be16_u16; exact F.
    + destruct (match f with V6 => is_icmp6_error (byte m (l4off mt)) | V4 => is_icmp4_error (byte m (l4off mt)) end) eqn:Ee.
      * unbind Eh i Ein. injection Eh as <-. rewrite Ei, Ee in D. unfold icmp_err in D. destruct (in_l4 i) as [s d|s d|ty id|]; try discriminate.
        -- injection D as <-. cbn. split; [first [exact Kf|reflexivity]|]. split; [discriminate|]. split; [left; reflexivity|discriminate].
        -- injection D as <-. cbn. split; [first [exact Kf|reflexivity]|]. split; [discriminate|]. split; [left; reflexivity|discriminate].
        -- rewrite Kf in D. destruct (match f with V6 => is_icmp6_error ty | V4 => is_icmp4_error ty end); [discriminate|]. injection D as <-. cbn. split; [first [exact Kf|reflexivity]|]. split; [discriminate|]. split; [left; reflexivity|discriminate].
      * injection Eh as <-. rewrite Ei, Ee in D. discriminate.
  - injection Eh as <-. discriminate.
Qed.
Lemma out_dst : forall g n s v f o s' evs, pool6_ok g -> steps23 g n s v = Ok (Sent f o, s', evs) -> v_fam v = V6 -> v_pr v = TCP -> is_u16 (snd (v_dst v)) -> typed4 (o_dst o).
Proof.
  intros g n s v f o s' evs (_ & fo & P) H Ef Ep U. unfold steps23 in H. unbind H r E. destruct r as [[[x en] s1] evs1]. destruct x; try discriminate. unbind H o1 Eo. unfold compute_out_tuple in Eo. unbind Eo b Eb.
  destruct b as [[s6 s4]|]; [|injection Eo as <-; discriminate]. rewrite Ef, Ep in Eo. destruct (rfc6052_6to4 (g_pool6 g) (fst (v_dst v))) as [a|] eqn:Ea; [|injection Eo as <-; discriminate].
  injection Eo as <-. injection H as _ <- _ _. cbn. split; [|exact U]. exact (proj1 (C02_6to4_extracts _ _ _ _ P Ea)).
Qed.

Lemma sound_occur : forall s x s', sound_db s -> fair x -> occur s x = Ok s' -> sound_db s'.
Proof.
  intros s [g better n n2 nm w w2 mem m lin|g better n w mem m lin|c p o] s' Sd Fa H; cbn [occur fair] in *.
  - destruct Fa as (F & U & P6). unbind H r E. destruct r as [[r s1] evs]. injection H as <-. unfold core6 in E. destruct (pkt_init_ipv6 mem m lin) as [[mt l]|b|]; [|injection E as _ <- _; exact Sd|discriminate].
    unbind E k Ek. destruct (determine_in_tuple k) as [x [v|]] eqn:Ev; [|destruct x; injection E as _ <- _; exact Sd]. destruct x; try (injection E as _ <- _; exact Sd).
    destruct (view_typed _ _ _ _ _ _ F Ek Ev) as (Vf & Vo & Ve & Vt). unbind E r1 Er. destruct r1 as [[r1 s2] evs2].
    assert (S2 : sound_db s2). { refine (sound23 g n s v _ _ _ Sd Vo Ve _ Er). intros X. rewrite Vf. split; [exact U|]. exact (proj1 (Vt X)). }
    destruct r1 as [f ot|y]; [|injection E as _ <- _; exact S2]. destruct (xlat64 (env64_of w ot) l m mt) as [out|j|j y i|] eqn:Ex; try discriminate; try (injection E as _ <- _; exact S2).
    unbind E h Eh. destruct h; [|injection E as _ <- _; exact S2]. destruct nm; [|injection E as _ <- _; exact S2]. unbind E r3 Er3. destruct r3 as [[r3 s3] evs3].
    assert (S3 : sound_db s3).
    { refine (sound23 g n2 s2 (hairpin_view v ot) _ _ _ S2 Vo Ve _ Er3). unfold hairpin_view. cbn [v_err v_fam v_dst v_pr]. rewrite Vf. cbn [flip]. intros X Et. exact (out_dst _ _ _ _ _ _ _ _ P6 Er Vf Et (proj2 (proj2 (Vt X)))). }
    destruct r3 as [f2 o2|y]; [|injection E as _ <- _; exact S3].
    destruct (step4_46 _ _ _ _ _ _ _ _ _) as [[| | |]|]; try discriminate; injection E as _ <- _; exact S3.
  - unbind H r E. destruct r as [[r s1] evs]. injection H as <-. unfold core4 in E. destruct (pkt_init_ipv4 mem m lin) as [[mt l]|b|]; [|injection E as _ <- _; exact Sd|discriminate].
    unbind E k Ek. destruct (determine_in_tuple k) as [x [v|]] eqn:Ev; [|destruct x; injection E as _ <- _; exact Sd]. destruct x; try (injection E as _ <- _; exact Sd).
    destruct (view_typed _ _ _ _ _ _ Fa Ek Ev) as (Vf & Vo & Ve & Vt). unbind E r1 Er. destruct r1 as [[r1 s2] evs2].
    assert (S2 : sound_db s2). { refine (sound23 g n s v _ _ _ Sd Vo Ve _ Er). intros X. rewrite Vf. intros _. exact (proj2 (Vt X)). }
    destruct r1 as [f ot|y]; [|injection E as _ <- _; exact S2].
    destruct (step4_46 _ _ _ _ _ _ _ _ _) as [[| | |]|]; try discriminate; injection E as _ <- _; exact S2.
  - destruct Fa as (No & Fo). unbind H r E. destruct r as [[r t] evs]. injection H as <-. refine (sound_step _ _ _ _ _ _ _ No Sd _ _ _ E); destruct o; cbn in *; tauto.
Qed.
Lemma live_sound : forall h s s', sound_db s -> Forall fair h -> live s h = Ok s' -> sound_db s'.
Proof.
  induction h as [|x h IH]; intros s s' Sd F H; cbn [live] in H; [injection H as <-; exact Sd|]. unbind H s1 E. apply Forall_cons_iff in F. exact (IH _ _ (sound_occur _ _ _ Sd (proj1 F) E) (proj2 F) H).
Qed.
