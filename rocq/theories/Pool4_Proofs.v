Require Import Verif.Base Verif.Addr_Model Verif.Addr_Spec Verif.Addr_Proofs Verif.Rtrie_Model.
Require Import Verif.Pool4_Model Verif.Pool4_Spec.
Local Ltac Zify.zify_post_hook ::= idtac.

(** ** Range lists *)

Definition rin (r : range) (a p : Z) : Prop := r_addr r = a /\ r_min r <= p <= r_max r.
Definition inr (l : list range) (a p : Z) : Prop := exists r, In r l /\ rin r a p.
Definition wfr (r : range) : Prop := 0 <= r_min r /\ r_max r <= 65535 /\ r_min r <= r_max r + 1 /\ r_len r = 32 /\ is_u32 (r_addr r).
Definition cnt (r : range) : Z := r_max r - r_min r + 1.
Fixpoint total (l : list range) : Z := match l with [] => 0 | r :: l' => cnt r + total l' end.

Lemma range_count_cnt : forall r, wfr r -> range_count r = cnt r.
Proof. intros r H. unfold range_count, rcount, cnt, u32, wfr in *. apply Z.mod_small. lia. Qed.

Lemma cnt_nonneg : forall r, wfr r -> 0 <= cnt r.
Proof. unfold wfr, cnt. lia. Qed.

Lemma total_nonneg : forall l, Forall wfr l -> 0 <= total l.
Proof. induction 1; cbn [total]; [lia|]. pose proof (cnt_nonneg _ H). lia. Qed.

Lemma inr_nil : forall a p, inr [] a p <-> False.
Proof. intros. split; [intros (r & [] & _)|tauto]. Qed.
Lemma inr_cons : forall r l a p, inr (r :: l) a p <-> rin r a p \/ inr l a p.
Proof.
  intros. split.
  - intros (x & [<-|H] & Hx); [auto|right; exists x; auto].
  - intros [H|(x & H & Hx)]; [exists r; split; [left; reflexivity|exact H]|exists x; split; [right; exact H|exact Hx]].
Qed.

Lemma fuse_touch : forall e x a p, wfr e -> wfr x -> r_addr e = r_addr x ->
  r_min x <= r_max e + 1 -> r_min e <= r_max x + 1 ->
  rin (ipv4_range_fuse e x) a p <-> rin e a p \/ rin x a p.
Proof.
  intros e x a p He Hx Ha H1 H2. unfold rin, ipv4_range_fuse, wfr in *. cbn [r_addr r_min r_max].
  destruct (r_min e <? r_min x) eqn:E1, (r_max x <? r_max e) eqn:E2; split; intros; lia.
Qed.

Lemma fuse_wf : forall e x, wfr e -> wfr x -> r_min x <= r_max e + 1 -> r_min e <= r_max x + 1 -> wfr (ipv4_range_fuse e x).
Proof.
  intros e x He Hx. unfold ipv4_range_fuse, wfr in *. cbn [r_addr r_min r_max r_len].
  intros. destruct (r_min e <? r_min x) eqn:E1, (r_max x <? r_max e) eqn:E2; unfold is_u32 in *; lia.
Qed.

(** What [fix_collisions] does to the entry and what follows it *)
Lemma u32_idem : forall a b, u32 (u32 a + b) = u32 (a + b).
Proof. intros. unfold u32. rewrite Zplus_mod_idemp_l. reflexivity. Qed.
Lemma u32_idem_m : forall a b, u32 (u32 a - b) = u32 (a - b).
Proof. intros. unfold u32. rewrite Zminus_mod_idemp_l. reflexivity. Qed.
Lemma u32_idem2 : forall a, u32 (u32 a) = u32 a.
Proof. intros. unfold u32. rewrite Zmod_mod. reflexivity. Qed.

Lemma fix_ok : forall rest c e c' l,
  wfr e -> Forall wfr rest -> ordered rest ->
  (forall x, In x rest -> r_addr e < r_addr x \/ r_addr e = r_addr x /\ r_min e <= r_min x) ->
  fix_collisions c e rest = (c', l) ->
  Forall wfr l /\ ordered l /\
  (forall a p, inr l a p <-> rin e a p \/ inr rest a p) /\
  (forall y, before y e -> (forall x, In x rest -> before y x) -> forall x, In x l -> before y x) /\
  u32 c' = u32 (c - total (e :: rest) + total l) /\ (is_u32 c -> is_u32 c') /\ l <> [].
Proof.
  induction rest as [|x rest IH]; intros c e c' l We Wr Or Hx H; cbn [fix_collisions] in H.
  { injection H as <- <-. repeat split; cbn [ordered total]; auto; try tauto.
    - intros y [].
    - rewrite inr_cons. tauto.
    - rewrite inr_cons. tauto.
    - intros y Hy _ z [<-|[]]. exact Hy.
    - f_equal. lia.
    - unfold is_u32 in *. lia.
    - unfold is_u32 in *. lia.
    - discriminate. }
  pose proof (Forall_inv Wr) as Wx. pose proof (Forall_inv_tail Wr) as Wr'. destruct Or as [Ox Or].
  destruct (ipv4_range_touches e x) eqn:T.
  - unfold ipv4_range_touches, port_range_touches in T.
    assert (T' : r_addr e = r_addr x /\ r_min x <= r_max e + 1 /\ r_min e <= r_max x + 1) by lia.
    destruct T' as (Ta & T1 & T2). clear T.
    assert (Wf : wfr (ipv4_range_fuse e x)) by (apply fuse_wf; auto).
    assert (Hz0 : forall z, In z rest -> r_addr (ipv4_range_fuse e x) < r_addr z \/ r_addr (ipv4_range_fuse e x) = r_addr z /\ r_min (ipv4_range_fuse e x) <= r_min z).
    { intros z Hz. destruct (Hx x (or_introl eq_refl)) as [?|[_ ?]]; [lia|].
      specialize (Ox z Hz). unfold before in Ox. unfold ipv4_range_fuse, wfr in *. cbn [r_addr r_min].
      destruct (r_min e <? r_min x) eqn:E; lia. }
    destruct (IH _ _ _ _ Wf Wr' Or Hz0 H) as (I1 & I2 & I3 & I4 & I5 & I6 & I7).
    split; [exact I1|]. split; [exact I2|]. split; [|split; [|split; [|split; [|exact I7]]]].
    + intros a p. rewrite I3, inr_cons, fuse_touch by auto. tauto.
    + intros y Hy1 Hy2 z Hz. apply (I4 y); auto; [|intros w Hw; apply Hy2; right; exact Hw].
      destruct (Hx x (or_introl eq_refl)) as [?|[_ ?]]; [lia|].
      unfold before, ipv4_range_fuse in *. cbn [r_addr r_min r_max]. destruct (r_min e <? r_min x) eqn:E; lia.
    + rewrite I5. rewrite !range_count_cnt by auto. cbn [total].
      replace (u32 (u32 (u32 (c - cnt e) - cnt x) + cnt (ipv4_range_fuse e x)) - (cnt (ipv4_range_fuse e x) + total rest) + total l)
        with (u32 (u32 (u32 (c - cnt e) - cnt x) + cnt (ipv4_range_fuse e x)) + (total l - (cnt (ipv4_range_fuse e x) + total rest))) by lia.
      rewrite u32_idem. rewrite <- Z.add_assoc. rewrite u32_idem.
      replace (u32 (c - cnt e) - cnt x + (cnt (ipv4_range_fuse e x) + (total l - (cnt (ipv4_range_fuse e x) + total rest))))
        with (u32 (c - cnt e) + (- cnt x + total l - total rest)) by lia.
      rewrite u32_idem. f_equal. lia.
    + intros _. apply I6. unfold is_u32, u32. apply Z.mod_pos_bound. lia.
  - injection H as <- <-.
    assert (Bx : before e x).
    { unfold ipv4_range_touches, port_range_touches in T. unfold before. destruct (Hx x (or_introl eq_refl)) as [?|[? ?]]; [lia|].
      unfold wfr in *.
      assert (r_len e =? r_len x = true) by lia. lia. }
    split; [constructor; auto|]. split.
    { cbn [ordered]. split; [|split; auto]. intros z [<-|Hz]; [exact Bx|].
      specialize (Ox z Hz). unfold before, wfr in *. lia. }
    split; [intros a p; rewrite !inr_cons; tauto|]. split.
    { intros y H1 H2 z [<-|Hz]; [exact H1|]. apply H2. exact Hz. }
    split; [f_equal; cbn [total]; lia|]. split; [auto|discriminate].
Qed.

Lemma cmp_lt : forall e n, compare_range e n = Lt -> before e n.
Proof.
  intros e n. unfold compare_range, before. destruct (Z.compare_spec (r_addr e) (r_addr n)); [|auto|discriminate].
  destruct (r_max e <? r_min n - 1) eqn:E; [right; lia|]. destruct (r_max n + 1 <? r_min e); discriminate.
Qed.
Lemma cmp_gt : forall e n, compare_range e n = Gt -> before n e.
Proof.
  intros e n. unfold compare_range, before. destruct (Z.compare_spec (r_addr e) (r_addr n)); [|discriminate|auto].
  destruct (r_max e <? r_min n - 1) eqn:E; [discriminate|]. destruct (r_max n + 1 <? r_min e) eqn:E2; [right; lia|discriminate].
Qed.
Lemma cmp_eq : forall e n, compare_range e n = Eq -> r_addr e = r_addr n /\ r_min n <= r_max e + 1 /\ r_min e <= r_max n + 1.
Proof.
  intros e n. unfold compare_range. destruct (Z.compare_spec (r_addr e) (r_addr n)); [|discriminate|discriminate].
  destruct (r_max e <? r_min n - 1) eqn:E; [discriminate|]. destruct (r_max n + 1 <? r_min e) eqn:E2; [discriminate|]. lia.
Qed.

Lemma before_trans : forall a b c, wfr b -> before a b -> before b c -> before a c.
Proof. unfold before, wfr. lia. Qed.

(** Either the addition meets nothing stored, not even adjacently, or it is
    part of a stored range. *)
Definition clear (l : list range) (n : range) : Prop := forall x, In x l -> compare_range x n <> Eq.
Definition inside (l : list range) (n : range) : Prop :=
  exists x, In x l /\ r_addr x = r_addr n /\ r_min x <= r_min n /\ r_max n <= r_max x.

Lemma fuse_inside : forall x n, wfr x -> r_min x <= r_min n -> r_max n <= r_max x -> ipv4_range_fuse x n = x.
Proof.
  intros [a l mn mx] n W H1 H2. unfold ipv4_range_fuse, wfr in *. cbn [r_addr r_len r_min r_max] in *.
  f_equal; [destruct (mn <? r_min n) eqn:E|destruct (r_max n <? mx) eqn:E]; lia.
Qed.

Lemma fix_nop : forall c e rest, ordered (e :: rest) -> wfr e -> Forall wfr rest -> fix_collisions c e rest = (c, e :: rest).
Proof.
  intros c e [|x rest] [H _] We Wr; [reflexivity|]. cbn [fix_collisions].
  destruct (ipv4_range_touches e x) eqn:T; [|reflexivity].
  specialize (H x (or_introl eq_refl)). unfold ipv4_range_touches, port_range_touches, before in *. lia.
Qed.

Lemma u32_pos : forall a, is_u32 (u32 a).
Proof. intros. unfold is_u32, u32. apply Z.mod_pos_bound. lia. Qed.

Lemma add_loop_ok : forall l c n k r c' l' pl,
  wfr n -> Forall wfr l -> ordered l -> add_range_loop c l n k = (r, c', l', pl) ->
  (k = KFail /\ r = Err ENOMEM /\ l' = l /\ c' = c \/
   r = OK /\ l' <> [] /\ Forall wfr l' /\ ordered l' /\
   (forall a p, inr l' a p <-> rin n a p \/ inr l a p) /\
   (forall y, before y n -> (forall x, In x l -> before y x) -> forall x, In x l' -> before y x) /\
   (clear l n \/ (inside l n /\ r_min n <= r_max n) -> u32 c' = u32 (c + total l' - total l))) /\
  (is_u32 c -> is_u32 c').
Proof.
  induction l as [|e l IH]; intros c n k r c' l' pl Wn Wl Ol H; cbn [add_range_loop] in H.
  { destruct k; injection H as <- <- <- <-; [split; auto| |];
    (split; [right|intros _; apply u32_pos]; repeat split; cbn [ordered]; auto; try discriminate; try tauto;
     [intros ? []|rewrite inr_cons; tauto|rewrite inr_cons; tauto|intros y Hy _ x [<-|[]]; exact Hy
     |intros _; cbn [total]; rewrite u32_idem2, range_count_cnt by auto; f_equal; lia]). }
  pose proof (Forall_inv Wl) as We. pose proof (Forall_inv_tail Wl) as Wl'. pose proof Ol as [Oe Ol'].
  destruct (compare_range e n) eqn:C.
  - (* fuse *)
    pose proof C as C0. apply cmp_eq in C. destruct C as (Ca & C1 & C2).
    destruct (fix_collisions c (ipv4_range_fuse e n) l) as [c2 l2] eqn:F. injection H as <- <- <- <-.
    assert (Wf : wfr (ipv4_range_fuse e n)) by (apply fuse_wf; auto).
    destruct (fix_ok l c (ipv4_range_fuse e n) c2 l2 Wf Wl' Ol') as (I1 & I2 & I3 & I4 & I5 & I6 & I7).
    { intros x Hx. specialize (Oe x Hx). unfold before in Oe. unfold ipv4_range_fuse, wfr in *. cbn [r_addr r_min].
      destruct (r_min e <? r_min n) eqn:E; lia. }
    { exact F. }
    split; [right; split; [reflexivity|]; split; [exact I7|]; split; [exact I1|]; split; [exact I2|]; split; [|split]|exact I6].
    + intros a p. rewrite I3, inr_cons, fuse_touch by auto. tauto.
    + intros y Hy Hy2 x Hx. apply (I4 y); auto; [|intros z Hz; apply Hy2; right; exact Hz].
      specialize (Hy2 e (or_introl eq_refl)). unfold before, ipv4_range_fuse in *. cbn [r_addr r_min].
      destruct (r_min e <? r_min n) eqn:E; lia.
    + intros [Hc|[Hi Hn]].
      { exfalso. apply (Hc e (or_introl eq_refl)). exact C0. }
      assert (Hin : r_min e <= r_min n /\ r_max n <= r_max e).
      { destruct Hi as (x & [<-|Hx] & H1 & H2 & H3); [auto|]. specialize (Oe x Hx). unfold before, wfr in *. lia. }
      rewrite fuse_inside in F by (auto; lia). rewrite fix_nop in F by auto.
      injection F as <- <-. f_equal. lia.
  - (* go on *)
    destruct (add_range_loop c l n k) as [[[r2 c2] l2] p2] eqn:A. injection H as <- <- <- <-.
    apply cmp_lt in C. destruct (IH _ _ _ _ _ _ _ Wn Wl' Ol' A) as (I1 & I2).
    split; [|exact I2].
    destruct I1 as [(-> & -> & -> & ->)|(-> & J0 & J1 & J2 & J3 & J4 & J5)]; [left; auto|right].
    split; [reflexivity|]. split; [discriminate|]. split; [constructor; auto|]. split; [cbn [ordered]; split; auto|].
    split; [intros a p; rewrite !inr_cons, J3; tauto|]. split.
    { intros y Hy Hy2 x [<-|Hx]; [apply Hy2; left; reflexivity|].
      apply (J4 y); auto. intros z Hz. apply Hy2. right. exact Hz. }
    intros Hc. rewrite J5; [f_equal; cbn [total]; lia|].
    destruct Hc as [Hc|[(x & [<-|Hx] & Hi) Hn]]; [left; intros x Hx; apply Hc; right; exact Hx| |right; split; [exists x; auto|exact Hn]].
    unfold before, wfr in *. lia.
  - (* in front of e *)
    apply cmp_gt in C.
    assert (Hall : forall x, In x (e :: l) -> before n x).
    { intros x [<-|Hx]; [exact C|]. apply (before_trans _ e); auto. }
    destruct k; injection H as <- <- <- <-; [split; auto| |];
    (split; [right|intros _; apply u32_pos]; split; [reflexivity|]; split; [discriminate|]; split; [constructor; auto|];
     split; [split; assumption|]; split; [intros; rewrite inr_cons; tauto|]; split;
     [intros y Hy Hy2 x [<-|Hx]; [exact Hy|apply Hy2; exact Hx]
     |intros _; rewrite u32_idem2, range_count_cnt by auto; f_equal; cbn [total]; lia]).
Qed.

(** Removal *)
Definition hit (p : prefix4) (lo hi : Z) (a q : Z) : Prop := prefix4_contains p a = true /\ lo <= q <= hi.
Definition no_hole (l : list range) (p : prefix4) (lo hi : Z) : Prop :=
  forall e, In e l -> prefix4_contains p (r_addr e) = true -> ~ (r_min e < lo /\ hi < r_max e).

Lemma rm_loop_ok : forall l c p lo hi m r c' l' m',
  0 <= lo -> lo <= hi -> hi <= 65535 -> Forall wfr l -> ordered l -> rm_loop c l p lo hi m = Ok (r, c', l', m') ->
  (r = Err ENOMEM \/
   r = OK /\ Forall wfr l' /\ ordered l' /\
   (forall a q, inr l' a q <-> inr l a q /\ ~ hit p lo hi a q) /\
   (forall y, (forall x, In x l -> before y x) -> forall x, In x l' -> before y x) /\
   (forall x, In x l' -> exists y, In y l /\ r_addr y = r_addr x) /\
   (no_hole l p lo hi -> u32 c' = u32 (c + total l' - total l))) /\
  (is_u32 c -> is_u32 c').
Proof.
  induction l as [|e l IH]; intros c p lo hi m r c' l' m' L0 Lh H0 Wl Ol H; cbn [rm_loop] in H.
  { injection H as <- <- <- <-. split; [|auto]. right. split; [reflexivity|]. split; [constructor|]. split; [exact I|].
    split; [intros a q; rewrite inr_nil; tauto|]. split; [auto|]. split; [intros x []|].
    intros _. f_equal. cbn [total]. lia. }
  pose proof (Forall_inv Wl) as We. pose proof (Forall_inv_tail Wl) as Wl'. pose proof Ol as [Oe Ol'].
  assert (NH : no_hole (e :: l) p lo hi -> no_hole l p lo hi) by (intros N x Hx; apply N; right; exact Hx).
  assert (NE : no_hole (e :: l) p lo hi -> prefix4_contains p (r_addr e) = true -> ~ (r_min e < lo /\ hi < r_max e))
    by (intros N; apply N; left; reflexivity).
  (* keep a modified copy of e in front of the rest *)
  assert (Keep : forall e' c1, (forall a q, rin e' a q <-> rin e a q /\ ~ hit p lo hi a q) -> wfr e' ->
     r_addr e' = r_addr e -> r_min e <= r_min e' -> r_max e' <= r_max e ->
     (no_hole (e :: l) p lo hi -> u32 c1 = u32 (c + cnt e' - cnt e)) -> (is_u32 c -> is_u32 c1) ->
     (let! x := rm_loop c1 l p lo hi m in let '(x, c, l'', m) := x in Ok (x, c, e' :: l'', m)) = Ok (r, c', l', m') ->
     (r = Err ENOMEM \/
      r = OK /\ Forall wfr l' /\ ordered l' /\
      (forall a q, inr l' a q <-> inr (e :: l) a q /\ ~ hit p lo hi a q) /\
      (forall y, (forall x, In x (e :: l) -> before y x) -> forall x, In x l' -> before y x) /\
      (forall x, In x l' -> exists y, In y (e :: l) /\ r_addr y = r_addr x) /\
      (no_hole (e :: l) p lo hi -> u32 c' = u32 (c + total l' - total (e :: l)))) /\
     (is_u32 c -> is_u32 c')).
  { intros e' c1 He' We' Ha Hmin Hmax Hc1 Hc2 HH. destruct (rm_loop c1 l p lo hi m) as [[[[x1 c2] l2] m2]| |] eqn:E; cbn [bind] in HH; try discriminate.
    injection HH as <- <- <- <-. destruct (IH _ _ _ _ _ _ _ _ _ L0 Lh H0 Wl' Ol' E) as [I1 I2]. split; [|auto].
    destruct I1 as [->|(-> & J1 & J2 & J3 & J4 & J5 & J6)]; [auto|right].
    split; [reflexivity|]. split; [constructor; auto|]. split.
    { cbn [ordered]. split; [|exact J2]. apply J4. intros x Hx. specialize (Oe x Hx). unfold before in *. lia. }
    split; [|split; [|split]].
    - intros a q. rewrite !inr_cons, J3, He'. tauto.
    - intros y Hy x [<-|Hx]; [specialize (Hy e (or_introl eq_refl)); unfold before in *; lia|].
      apply (J4 y); auto. intros z Hz. apply Hy. right. exact Hz.
    - intros x [<-|Hx]; [exists e; split; [left; reflexivity|symmetry; exact Ha]|].
      destruct (J5 x Hx) as (y & Hy & Hya). exists y. split; [right; exact Hy|exact Hya].
    - intros N. rewrite J6 by auto. replace (c1 + total l2 - total l) with (c1 + (total l2 - total l)) by lia.
      rewrite <- u32_idem, Hc1, u32_idem by auto. f_equal. cbn [total]. lia. }
  destruct (prefix4_contains p (r_addr e)) eqn:Pe; cbn [negb] in H.
  2:{ apply (Keep e c); auto; try lia; [|intros _; f_equal; lia].
      intros a q. split; [|tauto]. intros Hr. split; [exact Hr|]. intros [Hc _]. destruct Hr as [Hr _]. congruence. }
  destruct ((lo <=? r_min e) && (r_max e <=? hi)) eqn:E1.
  { (* dropped *)
    destruct (IH _ _ _ _ _ _ _ _ _ L0 Lh H0 Wl' Ol' H) as [I1 I2]. split; [|intros _; apply I2; apply u32_pos].
    destruct I1 as [->|(-> & J1 & J2 & J3 & J4 & J5 & J6)]; [auto|right].
    split; [reflexivity|]. split; [exact J1|]. split; [exact J2|]. split; [|split; [|split]].
    - intros a q. rewrite inr_cons, J3. split; [tauto|]. intros [[Hr|Hr] Hn]; [|tauto].
      exfalso. apply Hn. destruct Hr as [<- Hq]. split; [exact Pe|lia].
    - intros y Hy x Hx. apply (J4 y); auto. intros z Hz. apply Hy. right. exact Hz.
    - intros x Hx. destruct (J5 x Hx) as (y & Hy & Hya). exists y. split; [right; exact Hy|exact Hya].
    - intros N. rewrite J6 by auto. rewrite range_count_cnt by auto.
      replace (u32 (c - cnt e) + total l' - total l) with (u32 (c - cnt e) + (total l' - total l)) by lia.
      rewrite u32_idem. f_equal. cbn [total]. lia. }
  destruct ((r_min e <? lo) && (hi <? r_max e)) eqn:E2.
  { (* hole *)
    destruct (draw m) as [k m1]. destruct k; [injection H as <- <- <- <-; split; [auto|intros _; apply u32_pos]| |discriminate].
    set (tmp := Rg (r_addr e) (r_len e) (hi + 1) (r_max e)) in *. set (e' := Rg (r_addr e) (r_len e) (r_min e) (lo - 1)) in *.
    match type of H with (let! _ := rm_loop ?c1 _ _ _ _ _ in _) = _ => destruct (rm_loop c1 l p lo hi m1) as [[[[x1 c2] l2] m2]| |] eqn:E end;
      cbn [bind] in H; try discriminate.
    injection H as <- <- <- <-. destruct (IH _ _ _ _ _ _ _ _ _ L0 Lh H0 Wl' Ol' E) as [I1 I2].
    split; [|intros _; apply I2, u32_pos].
    destruct I1 as [->|(-> & J1 & J2 & J3 & J4 & J5 & J6)]; [auto|right].
    assert (Wt : wfr tmp) by (unfold wfr, tmp in *; cbn [r_addr r_len r_min r_max]; repeat split; try lia; apply We).
    assert (We' : wfr e') by (unfold wfr, e' in *; cbn [r_addr r_len r_min r_max]; repeat split; try lia; apply We).
    assert (Bt : forall x, In x l2 -> before tmp x).
    { apply J4. intros x Hx. specialize (Oe x Hx). unfold before, tmp in *. cbn [r_addr r_max]. lia. }
    split; [reflexivity|]. split; [constructor; [exact We'|constructor; [exact Wt|exact J1]]|]. split.
    { cbn [ordered]. split; [|split; auto]. intros x [<-|Hx].
      - unfold before, e', tmp. cbn [r_addr r_max r_min]. lia.
      - specialize (Bt x Hx). unfold before, tmp, e' in *. cbn [r_addr r_max r_min] in *. lia. }
    split; [|split; [|split]].
    - intros a q. rewrite !inr_cons, J3. split.
      + intros [Hr|[Hr|Hr]]; [| |tauto].
        * unfold rin, e' in Hr. cbn [r_addr r_min r_max] in Hr. split; [left; unfold rin; lia|]. intros [_ Hh]. lia.
        * unfold rin, tmp in Hr. cbn [r_addr r_min r_max] in Hr. split; [left; unfold rin; lia|]. intros [_ Hh]. lia.
      + intros [[Hr|Hr] Hn]; [|tauto]. destruct Hr as [<- Hq].
        assert (q < lo \/ hi < q).
        { destruct (Z_lt_le_dec q lo); [auto|]. destruct (Z_lt_le_dec hi q); [auto|]. exfalso. apply Hn. split; [exact Pe|lia]. }
        unfold rin, e', tmp. cbn [r_addr r_min r_max]. lia.
    - intros y Hy x [<-|[<-|Hx]].
      + specialize (Hy e (or_introl eq_refl)). unfold before, e' in *. cbn [r_addr r_min]. lia.
      + specialize (Hy e (or_introl eq_refl)). unfold before, tmp in *. cbn [r_addr r_min]. lia.
      + apply (J4 y); auto. intros z Hz. apply Hy. right. exact Hz.
    - intros x [<-|[<-|Hx]]; [exists e; split; [left; reflexivity|reflexivity]|exists e; split; [left; reflexivity|reflexivity]|].
      destruct (J5 x Hx) as (y & Hy & Hya). exists y. split; [right; exact Hy|exact Hya].
    - intros N. exfalso. apply (NE N eq_refl). lia. }
  destruct ((hi <? r_min e) || (r_max e <? lo)) eqn:E3.
  { apply (Keep e c); auto; try lia; [|intros _; f_equal; lia].
    intros a q. split; [|tauto]. intros Hr. split; [exact Hr|]. intros [_ Hc]. destruct Hr as [_ Hr]. lia. }
  destruct (r_min e <? lo) eqn:E4.
  { refine (Keep _ _ _ _ _ _ _ _ _ H).
    - intros a q. unfold rin, hit. cbn [r_addr r_min r_max]. split; [intros [<- Hr]; split; [lia|intros [_ ?]; lia]|].
      intros [[<- Hr] Hn]. split; [reflexivity|]. destruct (Z_lt_le_dec q lo); [lia|]. exfalso. apply Hn. split; [exact Pe|lia].
    - unfold wfr in *. cbn [r_addr r_len r_min r_max]. repeat split; try lia; apply We.
    - reflexivity.
    - cbn [r_min]. lia.
    - cbn [r_max]. lia.
    - intros _. rewrite u32_idem2. f_equal. unfold cnt. cbn [r_min r_max]. lia.
    - intros _. apply u32_pos. }
  destruct (hi <? r_max e) eqn:E5.
  { refine (Keep _ _ _ _ _ _ _ _ _ H).
    - intros a q. unfold rin, hit. cbn [r_addr r_min r_max]. split; [intros [<- Hr]; split; [lia|intros [_ ?]; lia]|].
      intros [[<- Hr] Hn]. split; [reflexivity|]. destruct (Z_lt_le_dec hi q); [lia|]. exfalso. apply Hn. split; [exact Pe|lia].
    - unfold wfr in *. cbn [r_addr r_len r_min r_max]. repeat split; try lia; apply We.
    - reflexivity.
    - cbn [r_min]. lia.
    - cbn [r_max]. lia.
    - intros _. rewrite u32_idem2. f_equal. unfold cnt. cbn [r_min r_max]. lia.
    - intros _. apply u32_pos. }
  lia.
Qed.

Lemma fix_addr : forall rest c e c' l x, fix_collisions c e rest = (c', l) -> In x l -> In (r_addr x) (map r_addr (e :: rest)).
Proof.
  induction rest as [|y rest IH]; intros c e c' l x H Hx; cbn [fix_collisions] in H.
  - injection H as <- <-. destruct Hx as [<-|[]]. left. reflexivity.
  - destruct (ipv4_range_touches e y).
    + specialize (IH _ _ _ _ _ H Hx). cbn [map In] in *. unfold ipv4_range_fuse in IH. cbn [r_addr] in IH. tauto.
    + injection H as <- <-. apply in_map. exact Hx.
Qed.
Lemma add_addr : forall l c n k r c' l' pl x, add_range_loop c l n k = (r, c', l', pl) -> In x l' ->
  In (r_addr x) (map r_addr (n :: l)).
Proof.
  induction l as [|e l IH]; intros c n k r c' l' pl x H Hx; cbn [add_range_loop] in H.
  - destruct k; injection H as <- <- <- <-; [destruct Hx| |]; apply in_map; exact Hx.
  - destruct (compare_range e n).
    + destruct (fix_collisions c (ipv4_range_fuse e n) l) as [c2 l2] eqn:F. injection H as <- <- <- <-.
      apply (fix_addr _ _ _ _ _ _ F) in Hx. cbn [map In] in *. unfold ipv4_range_fuse in Hx. cbn [r_addr] in Hx. tauto.
    + destruct (add_range_loop c l n k) as [[[r2 c2] l2] p2] eqn:A. injection H as <- <- <- <-.
      destruct Hx as [<-|Hx]; [cbn [map In]; tauto|]. specialize (IH _ _ _ _ _ _ _ _ A Hx). cbn [map In] in *. tauto.
    + destruct k; injection H as <- <- <- <-; [right|..]; apply in_map; exact Hx.
Qed.
