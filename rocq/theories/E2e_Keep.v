(** * C88: the whole life of a stateful translator, from its start, on octets:
    conversations are kept as long as promised *)
Require Import Verif.Base Verif.Addr_Model Verif.Addr_Spec Verif.Addr_Properties Verif.Rtrie_Model Verif.Pool4_Model Verif.Fsm_Model Verif.Bib_Model
  Verif.Bib_Inv Verif.Bib_Find Verif.Bib_Add Verif.Bib_Hist Verif.Bib_Time Verif.Bib_Spec Verif.Bib_Properties Verif.Nat64_Model Verif.Nat64_Spec Verif.Nat64_Properties Verif.Nat64_Errors Verif.Nat64_Safe Verif.Nat64_Pool4.
Require Import Verif.Csum_Model Verif.Csum_Spec Verif.Csum_Proofs Verif.Csum_Properties Verif.Pkt_Model Verif.Pkt_Spec Verif.Pkt_Proofs Verif.Pkt_Properties
  Verif.Hdr_Model Verif.Hdr_Spec Verif.Hdr_Proofs Verif.Hdr_Properties Verif.Ext_Model Verif.Ext_Spec Verif.Xlat_Model Verif.Xlat_Spec Verif.Xlat_Proofs Verif.Xlat_Proofs46
  Verif.Xlat_Properties Verif.Icmperr_Spec Verif.Icmperr_Properties Verif.Trip_Spec Verif.Trip_Proofs Verif.E2e_Model Verif.E2e_Spec Verif.E2e_Proofs Verif.E2e_Out Verif.E2e_Back Verif.E2e_Hairpin
  Verif.E2e_Properties Verif.E2e_Pool4 Verif.E2e_Cases Verif.Bib_Origin Verif.Bib_Keep Verif.E2e_Life.
Local Ltac Zify.zify_post_hook ::= idtac.

(** The clock does not go back, and other instances tell about the past. *)
Fixpoint on_time (T : Z) (h : list happening) : Prop :=
  match h with
  | [] => True
  | From6 _ _ n n2 _ _ _ _ _ _ :: h' => T <= n_now n <= n_now n2 /\ on_time (n_now n2) h'
  | From4 _ _ n _ _ _ _ :: h' => T <= n_now n /\ on_time (n_now n) h'
  | Table _ _ o :: h' => if timed o then T <= op_now o /\ sync_time_ok (op_now o) o /\ on_time (op_now o) h' else on_time T h'
  end.
Fixpoint end_time (T : Z) (h : list happening) : Z :=
  match h with
  | [] => T
  | From6 _ _ _ n2 _ _ _ _ _ _ :: h' => end_time (n_now n2) h'
  | From4 _ _ n _ _ _ _ :: h' => end_time (n_now n) h'
  | Table _ _ o :: h' => end_time (if timed o then op_now o else T) h'
  end.
(** Nothing takes the mapping away from the conversation: see [spares]. *)
Definition lets_be (pr : proto) (S6 S4 D4 : ta) (t0 : Z) (x : happening) : Prop :=
  match x with
  | From6 g _ n _ _ _ _ _ _ _ => forall d, mask_domain_find (g_pool4 g) pr (n_mark n) (n_hash n) (n_eph n) (n_route n) (n_kro n) = Ok (Domain d) ->
      d_dynamic d = true -> mask_domain_matches d (fst S4) (snd S4) = true
  | From4 _ _ _ _ _ _ _ => True
  | Table c p o => p = pr -> spares pr S6 S4 D4 t0 c o
  end.

(** ** Proofs: what a packet does to the tables is one step, or two *)
Definition op23 (g : xconf) (n : env) (pr : proto) (f : fam) (o : op) : Prop :=
  match f with
  | V6 => exists d, mask_domain_find (g_pool4 g) pr (n_mark n) (n_hash n) (n_eph n) (n_route n) (n_kro n) = Ok (Domain d) /\
      ((exists a b c, o = OAdd6 d a b c (n_now n) (n_al n)) \/ exists a b c sg, o = OTcp6 d a b c sg (n_now n) (n_al n))
  | V4 => (exists a b c, o = OAdd4 a b c (n_now n) (n_al n)) \/ exists a b c sg, o = OTcp4 a b c sg (n_skb n) (n_now n) (n_al n)
  end.
Definition moved (g : xconf) (n : env) (f : fam) (pr : proto) (s s' : db) : Prop :=
  get_table s' pr = get_table s pr \/ exists o x evs, op23 g n pr f o /\ step (g_cfg g) pr (get_table s pr) o = Ok (x, get_table s' pr, evs).
Lemma moved_set : forall g n f p s t pr o x evs, p <> OTHER -> op23 g n p f o -> step (g_cfg g) p (get_table s p) o = Ok (x, t, evs) -> moved g n f pr s (set_table s p t).
Proof.
  intros g n f p s t pr o x evs No O E. destruct (proto_eq_dec p pr) as [->|N].
  - right. exists o, x, evs. split; [exact O|]. rewrite E. destruct pr; try reflexivity. congruence.
  - left. destruct p, pr; try congruence; reflexivity.
Qed.
Lemma moved23 : forall g n s v o s' evs pr, v_pr v <> OTHER -> v_err v = true \/ v_l4 v = v_pr v -> steps23 g n s v = Ok (o, s', evs) -> moved g n (v_fam v) pr s s'.
Proof.
  intros g n s v o s' evs pr No El H. destruct (v_err v) eqn:Er.
  { destruct (steps23_error _ _ _ _ _ _ _ Er H) as [-> _]. left. reflexivity. }
  destruct El as [X|El]; [discriminate|].
  unfold steps23 in H. unbind H r E. destruct r as [[[x en] s1] evs1].
  assert (S1 : moved g n (v_fam v) pr s s1).
  { clear H. assert (Id : moved g n (v_fam v) pr s s) by (left; reflexivity). unfold filtering_and_updating in E. unbind E a Ea. destruct a as [y|]; [injection E as _ _ <- _; exact Id|]. clear Ea. unfold fu_update in E.
    assert (A6 : forall x en s1 evs1, v_fam v = V6 -> v_pr v <> TCP -> ipv6_simple g n s v = Ok (x, en, s1, evs1) -> moved g n (v_fam v) pr s s1).
    { clear E. intros x' en' s1' evs1' Ef Np E. unfold ipv6_simple in E. destruct (xlat_dst_6to4 g v) as [d4|]; [|injection E as _ _ <- _; exact Id]. unbind E f Em. destruct f as [d|]; [|injection E as _ _ <- _; exact Id].
      unbind E r Eb. destruct r as [[[e en2] t] e2]. injection E as _ _ <- _. rewrite Ef.
      refine (moved_set g n V6 (v_pr v) s t pr (OAdd6 d (v_src v) (v_dst v) d4 (n_now n) (n_al n)) (RRc e en2) e2 No _ _); [exists d; split; [exact Em|left; eauto]|].
      cbn [step]. destruct (v_pr v); try congruence; rewrite Eb; reflexivity. }
    assert (A4 : forall x en s1 evs1, v_fam v = V4 -> v_pr v <> TCP -> ipv4_simple g n s v = Ok (x, en, s1, evs1) -> moved g n (v_fam v) pr s s1).
    { clear E. intros x' en' s1' evs1' Ef Np E. unfold ipv4_simple in E. destruct (xlat_src_4to6 g v) as [d6|]; [|injection E as _ _ <- _; exact Id].
      unbind E r Eb. destruct r as [[e en2] t]. injection E as _ _ <- _. rewrite Ef.
      refine (moved_set g n V4 (v_pr v) s t pr (OAdd4 (v_dst v) (v_src v) d6 (n_now n) (n_al n)) (RRc e en2) [] No _ _); [left; eauto|].
      cbn [step]. destruct (v_pr v); try congruence; rewrite Eb; reflexivity. }
    destruct (v_l4 v) eqn:El4; rewrite <- El in *; destruct (v_fam v) eqn:Ef.
    all: try (apply (A6 _ _ _ _ eq_refl ltac:(discriminate) E)).
    all: try (apply (A4 _ _ _ _ eq_refl ltac:(discriminate) E)).
    all: try (injection E as _ _ <- _; exact Id).
    - unfold ipv6_tcp in E. rewrite <- El in E. destruct (xlat_dst_6to4 g v) as [d4|]; [|injection E as _ _ <- _; exact Id]. unbind E f Em. destruct f as [d|]; [|injection E as _ _ <- _; exact Id].
      unbind E r Eb. destruct r as [[[e en2] t] e2]. injection E as _ _ <- _.
      refine (moved_set g n V6 TCP s t pr (OTcp6 d (v_src v) (v_dst v) d4 (v_seg v) (n_now n) (n_al n)) (RVerdict e en2) e2 ltac:(discriminate) _ _); [exists d; split; [exact Em|right; eauto 10]|].
      cbn [step get_table]. rewrite Eb. reflexivity.
    - unfold ipv4_tcp in E. destruct (xlat_src_4to6 g v) as [d6|]; [|injection E as _ _ <- _; exact Id].
      unbind E r Eb. destruct r as [[[e en2] t] e2]. injection E as _ _ <- _.
      refine (moved_set g n V4 TCP s t pr (OTcp4 (v_dst v) (v_src v) d6 (v_seg v) (n_skb n) (n_now n) (n_al n)) (RVerdict e en2) e2 ltac:(discriminate) _ _); [right; eauto 10|].
      cbn [step get_table]. rewrite Eb. reflexivity.
    - destruct (g_drop_info g); [injection E as _ _ <- _; exact Id|]. exact (A6 _ _ _ _ eq_refl ltac:(discriminate) E). }
  destruct x; try (injection H as _ <- _; exact S1). unbind H o1 Eo. destruct o1 as [[] [ot|]]; injection H as _ <- _; exact S1.
Qed.

Lemma moved_occur : forall s x s' pr, fair x -> occur s x = Ok s' ->
  match x with
  | From6 g _ n n2 _ _ _ _ _ _ => exists s1, moved g n V6 pr s s1 /\ (sound_db s -> sound_db s1) /\ (s' = s1 \/ moved g n2 V4 pr s1 s')
  | From4 g _ n _ _ _ _ => moved g n V4 pr s s'
  | Table c p o => get_table s' pr = get_table s pr \/ p = pr /\ exists x evs, step c pr (get_table s pr) o = Ok (x, get_table s' pr, evs)
  end.
Proof.
  intros s [g better n n2 nm w w2 mem m lin|g better n w mem m lin|c p o] s' pr Fa H; cbn [occur fair] in *.
  - destruct Fa as (F & U & P6). unbind H r E. destruct r as [[r s1] evs]. injection H as <-. unfold core6 in E.
    assert (Id : s = s1 -> exists s2, moved g n V6 pr s s2 /\ (sound_db s -> sound_db s2) /\ (s1 = s2 \/ moved g n2 V4 pr s2 s1)) by (intros <-; exists s; split; [left; reflexivity|auto]).
    destruct (pkt_init_ipv6 mem m lin) as [[mt l]|b|]; [|injection E as _ X _; exact (Id X)|discriminate].
    unbind E k Ek. destruct (determine_in_tuple k) as [x [v|]] eqn:Ev; [|destruct x; injection E as _ X _; exact (Id X)]. destruct x; try (injection E as _ X _; exact (Id X)).
    destruct (view_typed _ _ _ _ _ _ F Ek Ev) as (Vf & Vo & Ve & Vt). unbind E r1 Er. destruct r1 as [[r1 s2] evs2]. pose proof (moved23 _ _ _ _ _ _ _ pr Vo Ve Er) as M. rewrite Vf in M.
    assert (Sd : sound_db s -> sound_db s2). { intros Sd. refine (sound23 g n s v _ _ _ Sd Vo Ve _ Er). intros X. rewrite Vf. split; [exact U|]. exact (proj1 (Vt X)). }
    exists s2. split; [exact M|]. split; [exact Sd|]. clear Id.
    destruct r1 as [f ot|y]; [|injection E as _ <- _; left; reflexivity]. destruct (xlat64 (env64_of w ot) l m mt) as [out|j|j y i|] eqn:Ex; try discriminate; try (injection E as _ <- _; left; reflexivity).
    unbind E h Eh. destruct h; [|injection E as _ <- _; left; reflexivity]. destruct nm; [|injection E as _ <- _; left; reflexivity]. unbind E r3 Er3. destruct r3 as [[r3 s3] evs3].
    assert (M3 : moved g n2 V4 pr s2 s3).
    { pose proof (moved23 g n2 s2 (hairpin_view v ot) _ _ _ pr Vo Ve Er3) as X. unfold hairpin_view in X. cbn [v_fam] in X. rewrite Vf in X. exact X. }
    destruct r3 as [f2 o2|y]; [|injection E as _ <- _; right; exact M3].
    destruct (step4_46 _ _ _ _ _ _ _ _ _) as [[| | |]|]; try discriminate; injection E as _ <- _; right; exact M3.
  - unbind H r E. destruct r as [[r s1] evs]. injection H as <-. unfold core4 in E. assert (Id : s = s1 -> moved g n V4 pr s s1) by (intros <-; left; reflexivity).
    destruct (pkt_init_ipv4 mem m lin) as [[mt l]|b|]; [|injection E as _ X _; exact (Id X)|discriminate].
    unbind E k Ek. destruct (determine_in_tuple k) as [x [v|]] eqn:Ev; [|destruct x; injection E as _ X _; exact (Id X)]. destruct x; try (injection E as _ X _; exact (Id X)).
    destruct (view_typed _ _ _ _ _ _ Fa Ek Ev) as (Vf & Vo & Ve & Vt). unbind E r1 Er. destruct r1 as [[r1 s2] evs2].
    pose proof (moved23 _ _ _ _ _ _ _ pr Vo Ve Er) as M. rewrite Vf in M.
    destruct r1 as [f ot|y]; [|injection E as _ <- _; exact M].
    destruct (step4_46 _ _ _ _ _ _ _ _ _) as [[| | |]|]; try discriminate; injection E as _ <- _; exact M.
  - destruct Fa as (No & Fo). unbind H r E. destruct r as [[r t] evs]. injection H as <-. destruct (proto_eq_dec p pr) as [->|N].
    + right. split; [reflexivity|]. exists r, evs. rewrite E. destruct pr; try reflexivity. congruence.
    + left. destruct p, pr; try congruence; reflexivity.
Qed.

(** ** The clock *)
Definition punctual (T : Z) (s : db) : Prop := forall pr, pr <> OTHER -> ord T (get_table s pr).
Lemma punctual_init : punctual 0 init_db.
Proof. intros pr No. destruct pr; try congruence; apply ord_init. Qed.
Lemma op23_facts : forall g n pr f o, usable4 g n \/ f = V4 -> op23 g n pr f o -> wf_op o /\ timed o = true /\ op_now o = n_now n /\ sync_time_ok (n_now n) o /\ match o with OClean _ _ => False | _ => True end.
Proof.
  intros g n pr [|] o U O.
  - destruct U as [U|]; [|discriminate]. destruct O as (d & Em & O). destruct (U _ _ Em) as (masks & Of & _). destruct O as [(a & b & c & ->)|(a & b & c & sg & ->)]; (split; [exists masks; exact Of|]); cbn; auto.
  - destruct O as [(a & b & c & ->)|(a & b & c & sg & ->)]; cbn; auto.
Qed.
Lemma moved_ord : forall g n f pr s s' T, usable4 g n \/ f = V4 -> pr <> OTHER -> reachable_db s -> T <= n_now n -> ord T (get_table s pr) -> moved g n f pr s s' -> ord (n_now n) (get_table s' pr).
Proof.
  intros g n f pr s s' T U No R Ht O [M|(o & x & evs & Op & E)].
  - rewrite M. eapply ord_mono; eauto.
  - destruct (op23_facts _ _ _ _ _ U Op) as (W & Tm & Nw & Sy & _). destruct (reach_inv _ _ (reachable_table _ _ R No)) as [I _].
    refine (step_P _ _ o (ord (n_now n)) _ _ _ _ W _ I (ord_mono _ _ _ O Ht) E). apply ord_closed; [intros _; exact Nw|exact Sy].
Qed.
Lemma moved_stands : forall g n f pr s s' T S6 S4 D4 t0, usable4 g n \/ f = V4 -> pr <> OTHER -> reachable_db s -> T <= n_now n -> ord T (get_table s pr) -> t0 <= T ->
  (f = V6 -> forall d, mask_domain_find (g_pool4 g) pr (n_mark n) (n_hash n) (n_eph n) (n_route n) (n_kro n) = Ok (Domain d) -> d_dynamic d = true -> mask_domain_matches d (fst S4) (snd S4) = true) ->
  moved g n f pr s s' -> stands pr S6 S4 D4 t0 (get_table s pr) -> stands pr S6 S4 D4 t0 (get_table s' pr).
Proof.
  intros g n f pr s s' T S6 S4 D4 t0 U No R Ht O H0 Hd [M|(o & x & evs & Op & E)] St; [rewrite M; exact St|].
  destruct (op23_facts _ _ _ _ _ U Op) as (W & Tm & Nw & Sy & Nc). destruct (reach_inv _ _ (reachable_table _ _ R No)) as [I _].
  refine (stands_step _ _ o (n_now n) _ _ _ _ _ _ _ _ No W I (ord_mono _ _ _ O Ht) (Z.le_trans _ _ _ H0 Ht) (fun _ => Nw) _ E St).
  destruct f.
  - destruct Op as (d & Em & [(a & b & c & ->)|(a & b & c & sg & ->)]); (split; [exact (fun X => X)|split; [|exact Logic.I]]); cbn [outgrown]; intros (_ & X & Y); rewrite (Hd eq_refl d Em X) in Y; discriminate.
  - destruct Op as [(a & b & c & ->)|(a & b & c & sg & ->)]; (split; [exact (fun X => X)|split; [exact (fun X => X)|exact Logic.I]]).
Qed.

Lemma step_ord : forall c pr o T t x t' evs, wf_op o -> inv [] t -> ord T t -> (timed o = true -> op_now o = T) -> sync_time_ok T o -> step c pr t o = Ok (x, t', evs) -> ord T t'.
Proof. intros c pr o T t x t' evs W I O E S H. refine (step_P _ _ o (ord T) _ _ _ _ W _ I O H). apply ord_closed; assumption. Qed.
Lemma fair_wf : forall c p o, fair (Table c p o) -> wf_op o.
Proof. intros c p o [_ H]. destruct o; cbn in *; tauto. Qed.

Lemma occur_ord : forall s x s' T h, sound_db s -> fair x -> on_time T (x :: h) -> punctual T s -> occur s x = Ok s' -> punctual (end_time T [x]) s' /\ on_time (end_time T [x]) h.
Proof.
  intros s x s' T h Sd Fa Ti P H. pose proof (proj1 Sd) as R. split.
  - intros pr No. pose proof (P pr No) as O. pose proof (moved_occur s x s' pr Fa H) as M. destruct x as [g better n n2 nm w w2 mem m lin|g better n w mem m lin|c p o]; cbn [end_time on_time] in *.
    + destruct M as (s1 & M1 & Hs1 & M2). destruct Fa as (_ & U & _). pose proof (moved_ord _ _ _ _ _ _ _ (or_introl U) No R (proj1 (proj1 Ti)) O M1) as O1.
      destruct M2 as [->|M2]; [eapply ord_mono; [exact O1|apply Ti]|]. exact (moved_ord _ _ _ _ _ _ _ (or_intror eq_refl) No (proj1 (Hs1 Sd)) (proj2 (proj1 Ti)) O1 M2).
    + exact (moved_ord _ _ _ _ _ _ _ (or_intror eq_refl) No R (proj1 Ti) O M).
    + pose proof (fair_wf _ _ _ Fa) as W. destruct (reach_inv _ _ (reachable_table _ _ R No)) as [I _]. destruct (timed o) eqn:Et.
      * destruct Ti as (T1 & T2 & _). pose proof (ord_mono _ _ _ O T1) as O'. destruct M as [->|(-> & y & evs & E)]; [exact O'|]. exact (step_ord _ _ _ _ _ _ _ _ W I O' (fun _ => eq_refl) T2 E).
      * destruct M as [->|(-> & y & evs & E)]; [exact O|]. refine (step_ord _ _ _ _ _ _ _ _ W I O _ _ E); [congruence|]. destruct o; try exact Logic.I. discriminate.
  - destruct x as [g better n n2 nm w w2 mem m lin|g better n w mem m lin|c p o]; cbn [end_time on_time] in *; try apply Ti. destruct (timed o); apply Ti.
Qed.
Lemma occur_later : forall x T h, on_time T (x :: h) -> T <= end_time T [x].
Proof. intros [g better n n2 nm w w2 mem m lin|g better n w mem m lin|c p o] T h H; cbn [end_time on_time] in *; [lia|lia|]. destruct (timed o); [lia|lia]. Qed.
Lemma occur_stands : forall s x s' T h pr S6 S4 D4 t0, pr <> OTHER -> sound_db s -> fair x -> on_time T (x :: h) -> punctual T s -> t0 <= T -> lets_be pr S6 S4 D4 t0 x -> occur s x = Ok s' ->
  stands pr S6 S4 D4 t0 (get_table s pr) -> stands pr S6 S4 D4 t0 (get_table s' pr).
Proof.
  intros s x s' T h pr S6 S4 D4 t0 No Sd Fa Ti P H0 Lb H St. pose proof (proj1 Sd) as R. pose proof (P pr No) as O. pose proof (moved_occur s x s' pr Fa H) as M.
  destruct x as [g better n n2 nm w w2 mem m lin|g better n w mem m lin|c p o]; cbn [on_time lets_be] in *.
  - destruct M as (s1 & M1 & Hs1 & M2). destruct Fa as (_ & U & _). pose proof (moved_ord _ _ _ _ _ _ _ (or_introl U) No R (proj1 (proj1 Ti)) O M1) as O1.
    pose proof (moved_stands _ _ _ _ _ _ _ _ _ _ _ (or_introl U) No R (proj1 (proj1 Ti)) O H0 (fun _ => Lb) M1 St) as St1. destruct M2 as [->|M2]; [exact St1|].
    refine (moved_stands _ _ _ _ _ _ _ _ _ _ _ (or_intror eq_refl) No (proj1 (Hs1 Sd)) (proj2 (proj1 Ti)) O1 _ _ M2 St1); [lia|discriminate].
  - refine (moved_stands _ _ _ _ _ _ _ _ _ _ _ (or_intror eq_refl) No R (proj1 Ti) O H0 _ M St). discriminate.
  - pose proof (fair_wf _ _ _ Fa) as W. destruct (reach_inv _ _ (reachable_table _ _ R No)) as [I _]. destruct M as [->|(-> & y & evs & E)]; [exact St|]. specialize (Lb eq_refl). destruct (timed o) eqn:Et.
    + destruct Ti as (T1 & T2 & _). exact (stands_step _ _ _ _ _ _ _ _ _ _ _ _ No W I (ord_mono _ _ _ O T1) (Z.le_trans _ _ _ H0 T1) (fun _ => eq_refl) Lb E St).
    + refine (stands_step _ _ _ T _ _ _ _ _ _ _ _ No W I O H0 _ Lb E St). congruence.
Qed.

Lemma live_stands : forall h s s' T pr S6 S4 D4 t0, pr <> OTHER -> sound_db s -> Forall fair h -> on_time T h -> punctual T s -> t0 <= T -> Forall (lets_be pr S6 S4 D4 t0) h -> live s h = Ok s' ->
  stands pr S6 S4 D4 t0 (get_table s pr) -> stands pr S6 S4 D4 t0 (get_table s' pr).
Proof.
  induction h as [|x h IH]; intros s s' T pr S6 S4 D4 t0 No Sd F Ti P H0 Lb H St; cbn [live] in H; [injection H as <-; exact St|]. unbind H s1 E. apply Forall_cons_iff in F, Lb. destruct F as [F1 F2]. destruct Lb as [L1 L2].
  destruct (occur_ord _ _ _ _ _ Sd F1 Ti P E) as [P1 T1]. pose proof (occur_later _ _ _ Ti) as Hl.
  exact (IH s1 s' (end_time T [x]) _ _ _ _ _ No (sound_occur _ _ _ Sd F1 E) F2 T1 P1 (Z.le_trans _ _ _ H0 Hl) L2 H (occur_stands _ _ _ _ _ _ _ _ _ _ No Sd F1 Ti P H0 L1 E St)).
Qed.
Lemma live_punctual : forall h s s' T, sound_db s -> Forall fair h -> on_time T h -> punctual T s -> live s h = Ok s' -> punctual (end_time T h) s'.
Proof.
  induction h as [|x h IH]; intros s s' T Sd F Ti P H; cbn [live] in H; [injection H as <-; exact P|]. unbind H s1 E. apply Forall_cons_iff in F. destruct F as [F1 F2].
  destruct (occur_ord _ _ _ _ _ Sd F1 Ti P E) as [P1 T1]. pose proof (IH s1 s' (end_time T [x]) (sound_occur _ _ _ Sd F1 E) F2 T1 P1 H) as X. destruct x; exact X.
Qed.

(** ** A packet that leaves makes its conversation stand *)
Lemma steps_stands : forall g n s v o s' evs, reachable_db s -> usable4 g n -> v_fam v = V6 -> v_err v = false -> v_l4 v = v_pr v -> v_pr v <> OTHER ->
  (v_pr v = TCP -> sg_syn (v_seg v) = true /\ (forall q, In q (queue (d_tcp s)) -> q_dst6 q <> v_dst v) /\ (forall k x a, rfc6052_6to4 (g_pool6 g) (fst (v_dst v)) = Some a -> ~ has_session (d_tcp s) (v_src v) k x (a, snd (v_dst v)))) ->
  steps23 g n s v = Ok (Sent V4 o, s', evs) -> stands (v_pr v) (v_src v) (o_src o) (o_dst o) (n_now n) (get_table s' (v_pr v)).
Proof.
  intros g n s v o s' evs (Ru & Rt & St & Ri) Us V1 V6 V5 No Ht E. unfold steps23 in E. unbind E r E1. destruct r as [[[x en] s2] evs2]. destruct x; try discriminate.
  unbind E y E2. destruct y as [[] [u|]]; try discriminate. injection E as _ -> -> ->.
  unfold filtering_and_updating in E1. unbind E1 a Ea. destruct a as [a|].
  { exfalso. unfold fu_admit in Ea. rewrite V1, V6 in Ea. destruct (prefix6_contains _ _); [|destruct (negb _)]; congruence. }
  unfold fu_update in E1. rewrite V5, V1 in E1. clear Ea.
  unfold compute_out_tuple in E2. unbind E2 b Eb. destruct b as [[b6 b4]|]; [|discriminate]. rewrite V1 in E2. destruct (rfc6052_6to4 (g_pool6 g) (fst (v_dst v))) as [a4|] eqn:Ex; [|discriminate]. injection E2 as <-. cbn [o_src o_dst].
  assert (Simple : v_pr v <> TCP -> reachable (v_pr v) (get_table s (v_pr v)) -> ipv6_simple g n s v = Ok (Continue, en, s', evs) ->
    stands (v_pr v) (v_src v) b4 (a4, match v_pr v with ICMP => snd b4 | _ => snd (v_dst v) end) (n_now n) (get_table s' (v_pr v))).
  { intros Np R Es. unfold ipv6_simple, xlat_dst_6to4 in Es. rewrite Ex in Es. unbind Es f Ef. destruct f as [d|]; [|discriminate]. destruct (Us _ _ Ef) as (out & O & _). destruct (reach_inv _ _ R) as [I _].
    destruct (C18_udp_icmp (g_cfg g) (v_pr v) _ d out (v_src v) (v_dst v) (a4, snd (v_dst v)) (n_now n) (n_al n) R Np O) as (e1 & en1 & t1 & evs1 & Eq & Hm). rewrite Eq in Es. cbn [bind] in Es. destruct e1 as [|z]; [|discriminate].
    injection Es as -> <- ->. destruct Hm as (kk & st & e & -> & Y1 & Y2 & Y3 & _ & _ & _ & Y & _). cbn [find_bib] in Eb. injection Eb as _ Eb.
    destruct (add6_stands _ _ _ _ _ _ _ _ _ _ _ _ _ Np I O Eq) as (e' & E' & S'). injection E' as <-.
    assert (T : get_table (set_table s (v_pr v) t1) (v_pr v) = t1) by (destruct (v_pr v); try reflexivity; congruence). rewrite T, <- Eb. rewrite Y1, Y3 in S'. rewrite Y2 in *. destruct (v_pr v); try congruence; exact S'. }
  destruct (v_pr v) eqn:Ev.
  2: exact (Simple ltac:(discriminate) Ru E1). 2: (destruct (g_drop_info g); [discriminate|]; exact (Simple ltac:(discriminate) Ri E1)). 2: congruence.
  destruct (Ht eq_refl) as (Hs & Hq & Hn'). assert (Hn : ~ exists k x, has_session (d_tcp s) (v_src v) k x (a4, snd (v_dst v))) by (intros (k & x & X); exact (Hn' k x a4 eq_refl X)). unfold ipv6_tcp, xlat_dst_6to4 in E1. rewrite Ex, Ev in E1. unbind E1 f Ef. destruct f as [d|]; [|discriminate]. destruct (Us _ _ Ef) as (out & O & _). destruct (reach_inv _ _ Rt) as [I _].
  unbind E1 r Er. destruct r as [[[v1 en1] t1] evs1]. injection E1 as E1 -> <- ->. assert (v1 = VContinue) by (destruct v1; try discriminate; reflexivity). subst v1.
  destruct (C18_tcp_partial (g_cfg g) _ d out (v_src v) (v_dst v) (a4, snd (v_dst v)) (v_seg v) (n_now n) (n_al n) Rt St O Hs Hq Hn) as (v2 & en2 & t2 & evs2 & Eq & Hm).
  rewrite Eq in Er. injection Er as -> -> -> ->. destruct Hm as [[_ Hm]|[X _]]; [|discriminate]. destruct Hm as (kk & st & e & -> & Y1 & Y2 & Y3 & _). cbn [find_bib] in Eb. injection Eb as _ Eb.
  destruct (tcp6_stands _ _ _ _ _ _ _ _ _ _ _ _ _ I O Hs Hq Hn Eq) as (e' & E' & S'). injection E' as <-. cbn [get_table set_table d_tcp]. rewrite <- Eb. rewrite Y1, Y3 in S'. exact S'.
Qed.
Lemma there_stands : forall g better n n2 nm w w2 s mem m lin hs p up pay pr S6 D6 o s1 evs,
  reachable_db s -> typed_db s -> usable4 g n -> pool6_ok g -> world64 w -> Forall is_u8 m -> (lin <= length m)%nat ->
  packet6 m hs p up pay -> first_piece m hs -> talk6 m p up pr S6 D6 ->
  (p = 6 -> 5 <= oct m (up + 12) / 16) -> (20 + (length m - up) <= Z.to_nat 65535)%nat ->
  (pr = TCP -> syn_set m up /\ (forall q, In q (queue (d_tcp s)) -> q_dst6 q <> D6) /\
     forall k x a, rfc6052_6to4 (g_pool6 g) (fst D6) = Some a -> ~ has_session (d_tcp s) S6 k x (a, snd D6)) ->
  core6 g better n n2 nm w w2 s mem m lin = Ok (Packet4 o, s1, evs) ->
  exists S4 D4, talk4 o 20 pr S4 D4 /\ stands pr S6 S4 D4 (n_now n) (get_table s1 pr).
Proof.
  intros g better n n2 nm w w2 s mem m lin hs p up pay pr S6 D6 o s1 evs R Ty Us P6 W F L PK FP TK DO LEN Ht H.
  assert (Ht' : pr = TCP -> syn_set m up /\ forall q, In q (queue (d_tcp s)) -> q_dst6 q <> D6) by (intros E; destruct (Ht E) as (A & B & _); auto).
  destruct (there_steps g better n n2 nm w w2 s mem m lin hs p up pay pr S6 D6 o s1 evs R Ty Us P6 W F L PK FP TK DO LEN Ht' H) as (v & ot & (Es & V1 & V2 & V3 & V4 & V5 & V6 & V7) & X & _).
  destruct TK as (_ & _ & TE). destruct (ends_pr 58 _ _ _ _ _ _ _ ltac:(discriminate) TE) as (No & _).
  exists (o_src ot), (o_dst ot). split; [exact X|]. subst pr S6 D6.
  apply (steps_stands g n s v ot s1 evs R Us V1 V2 V3 No); [|exact Es]. intros E. destruct (Ht E) as (A & B & C). auto.
Qed.
