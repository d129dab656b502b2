From Coq Require FinFun.
Require Import Verif.Base Verif.Addr_Model Verif.Addr_Spec Verif.Addr_Proofs Verif.Rtrie_Model.
Require Import Verif.Pool4_Model Verif.Pool4_Spec Verif.Pool4_Proofs Verif.Pool4_Trees Verif.Pool4_Hist Verif.Pool4_Lookup.
Local Ltac Zify.zify_post_hook ::= idtac.

Lemma u32_small : forall a, is_u32 a -> u32 a = a.
Proof. intros a H. apply Z.mod_small. exact H. Qed.

Definition solidr (l : list range) : Prop := forall r, In r l -> r_min r <= r_max r.

Lemma total_app : forall l l', total (l ++ l') = total l + total l'.
Proof. induction l as [|r l IH]; intros l'; [reflexivity|]. cbn [app total]. rewrite IH. lia. Qed.
Lemma total_firstn_S : forall l i r, nth_error l i = Some r -> total (firstn (S i) l) = total (firstn i l) + cnt r.
Proof.
  induction l as [|x l IH]; intros i r H; [destruct i; discriminate|]. destruct i as [|i]; cbn in H.
  - injection H as ->. cbn [firstn total]. lia.
  - change (firstn (S (S i)) (x :: l)) with (x :: firstn (S i) l). change (firstn (S i) (x :: l)) with (x :: firstn i l).
    cbn [total]. rewrite (IH i r H). lia.
Qed.
Lemma total_pos : forall l, Forall wfr l -> 0 <= total l.
Proof. induction 1 as [|r l W Wl IH]; cbn [total]; [lia|]. pose proof (cnt_nonneg r W). lia. Qed.
Lemma total_firstn_le : forall l i, Forall wfr l -> 0 <= total (firstn i l) <= total l.
Proof.
  intros l i W. rewrite <- (firstn_skipn i l) at 3. rewrite total_app.
  assert (Forall wfr (firstn i l)) by (apply Forall_forall; intros x Hx; rewrite Forall_forall in W; apply W; rewrite <- (firstn_skipn i l); apply in_or_app; left; exact Hx).
  assert (Forall wfr (skipn i l)) by (apply Forall_forall; intros x Hx; rewrite Forall_forall in W; apply W; rewrite <- (firstn_skipn i l); apply in_or_app; right; exact Hx).
  pose proof (total_pos _ H). pose proof (total_pos _ H0). lia.
Qed.

Lemma raddrs_nth : forall r k, 0 <= k < cnt r -> nth_error (raddrs r) (Z.to_nat k) = Some (r_addr r, r_min r + k).
Proof.
  intros r k Hk. unfold raddrs. rewrite nth_error_map.
  assert (E : nth_error (seq 0 (Z.to_nat (cnt r))) (Z.to_nat k) = Some (Z.to_nat k)).
  { rewrite (nth_error_nth' _ O) by (rewrite seq_length; lia). rewrite seq_nth by lia. reflexivity. }
  rewrite E. cbn [option_map]. repeat f_equal. lia.
Qed.

Lemma addrs_nth : forall l i r k, Forall wfr l -> nth_error l i = Some r -> 0 <= k < cnt r ->
  nth_error (addrs l) (Z.to_nat (total (firstn i l) + k)) = Some (r_addr r, r_min r + k).
Proof.
  induction l as [|x l IH]; intros i r k W H Hk; [destruct i; discriminate|].
  cbn [addrs flat_map]. fold (addrs l). pose proof (raddrs_len x (Forall_inv W)) as Lx.
  destruct i as [|i]; cbn in H.
  - injection H as ->. cbn [firstn total]. rewrite nth_error_app1 by lia. apply raddrs_nth. exact Hk.
  - change (firstn (S i) (x :: l)) with (x :: firstn i l). cbn [total].
    pose proof (total_firstn_le l i (Forall_inv_tail W)) as Hp. pose proof (cnt_nonneg x (Forall_inv W)) as Hx.
    rewrite nth_error_app2 by lia. rewrite <- (IH i r k (Forall_inv_tail W) H Hk). f_equal. lia.
Qed.

(** Rotations *)
Definition rot {A} (k : nat) (l : list A) : list A := skipn k l ++ firstn k l.
Lemma rot_in : forall A k (l : list A) x, In x (rot k l) <-> In x l.
Proof. intros A k l x. unfold rot. rewrite <- (firstn_skipn k l) at 3. rewrite !in_app_iff. tauto. Qed.
Lemma rot_len : forall A k (l : list A), length (rot k l) = length l.
Proof. intros A k l. unfold rot. rewrite <- (firstn_skipn k l) at 3. rewrite !app_length. lia. Qed.
Lemma rot_nodup : forall A k (l : list A), NoDup l -> NoDup (rot k l).
Proof.
  intros A k l H. refine (NoDup_incl_NoDup H _ _); [rewrite rot_len; lia|]. intros x Hx. apply rot_in. exact Hx.
Qed.
Lemma rot_nth : forall A k j (l : list A), (k < length l)%nat -> (j < length l)%nat ->
  nth_error (rot k l) j = nth_error l (if k + j <? length l then k + j else k + j - length l)%nat.
Proof.
  intros A k j l Hk Hj. unfold rot.
  destruct (Nat.ltb_spec (k + j) (length l)) as [H|H].
  - rewrite nth_error_app1 by (rewrite skipn_length; lia). rewrite <- (firstn_skipn k l) at 2.
    rewrite nth_error_app2 by (rewrite firstn_length; lia). f_equal. rewrite firstn_length. lia.
  - rewrite nth_error_app2 by (rewrite skipn_length; lia). rewrite skipn_length. rewrite <- (firstn_skipn k l) at 3.
    rewrite nth_error_app1 by (rewrite firstn_length; lia). f_equal. lia.
Qed.

(** ** The cursor *)
(** [pos]: how many addresses of [addrs] precede or equal the current one *)
Definition at_ (l : list range) (d : domain) (pos : Z) : Prop :=
  d_ranges d = l /\ exists r, nth_error l (d_cur d) = Some r /\ r_min r - 1 <= d_port d <= r_max r /\
    pos = total (firstn (d_cur d) l) + (d_port d - r_min r + 1).

Lemma at_range : forall l d pos, Forall wfr l -> at_ l d pos -> 0 <= pos <= total l.
Proof.
  intros l d pos W (_ & r & Hr & Hp & ->). pose proof (total_firstn_le l (S (d_cur d)) W) as H. rewrite (total_firstn_S _ _ _ Hr) in H.
  pose proof (total_firstn_le l (d_cur d) W) as H1. unfold cnt in *. lia.
Qed.

Lemma place_ok : forall l i off, Forall wfr l -> solidr l -> l <> [] -> 0 <= off < total l -> total l < 2^32 ->
  exists j port r, place l i off = Some ((i + j)%nat, port) /\ nth_error l j = Some r /\ r_min r - 1 <= port <= r_max r /\
    off = total (firstn j l) + (port - r_min r + 1).
Proof.
  induction l as [|r l IH]; intros i off W S Hn Ho Ht; [congruence|]. cbn [place].
  pose proof (Forall_inv W) as Wr. pose proof (S r (or_introl eq_refl)) as Sr.
  cbn [total] in Ho, Ht. pose proof (total_pos l (Forall_inv_tail W)) as Hp. change (2^32) with 4294967296 in *.
  assert (Hc : range_count r = cnt r).
  { unfold range_count, rcount, cnt. rewrite u32_small; [reflexivity|]. unfold is_u32, cnt, wfr in *. change (2^32) with 4294967296. lia. }
  rewrite Hc. destruct (off <=? cnt r) eqn:E.
  - exists O, (r_min r + off - 1), r. rewrite Nat.add_0_r. split; [reflexivity|]. split; [reflexivity|]. cbn [firstn total]. unfold cnt in *. lia.
  - destruct l as [|r2 l2]; [cbn [total] in *; lia|].
    rewrite u32_small by (unfold is_u32; change (2^32) with 4294967296; unfold cnt in *; lia).
    destruct (IH (Datatypes.S i) (off - cnt r)) as (j & port & x & E1 & E2 & E3 & E4).
    + apply (Forall_inv_tail W).
    + intros y Hy. apply S. right. exact Hy.
    + discriminate.
    + cbn [total] in *. lia.
    + cbn [total] in *. pose proof (cnt_nonneg r Wr). lia.
    + exists (Datatypes.S j), port, x. split; [rewrite E1; replace (i + Datatypes.S j)%nat with (Datatypes.S i + j)%nat by lia; reflexivity|]. split; [exact E2|]. split; [exact E3|].
      change (firstn (Datatypes.S j) (r :: r2 :: l2)) with (r :: firstn j (r2 :: l2)). cbn [total] in *. lia.
Qed.

Definition wrap (n pos : Z) : Z := if pos =? n then 0 else pos.

Lemma next_ok : forall l d pos, Forall wfr l -> ordered l -> solidr l -> at_ l d pos ->
  let c := u32 (d_counter d + 1) in
  c <= d_count d -> (d_maxit d = 0 \/ c <= d_maxit d) ->
  exists d' a p f, mask_domain_next d = Ok (d', inl (a, p, f)) /\
    nth_error (addrs l) (Z.to_nat (wrap (total l) pos)) = Some (a, p) /\
    at_ l d' (wrap (total l) pos + 1) /\ d_counter d' = c /\ d_count d' = d_count d /\ d_maxit d' = d_maxit d /\
    (f = true -> c <> 1 /\ exists r, nth_error l (d_cur d) = Some r /\ r_addr r = a /\ p = d_port d + 1) /\
    (c <> 1 -> forall r, nth_error l (d_cur d) = Some r -> a = r_addr r -> p = d_port d + 1 -> f = true) /\
    (exists r, nth_error l (d_cur d') = Some r /\ r_addr r = a /\ d_port d' = p).
Proof.
  intros l d pos W O S (El & r & Hr & Hp & Epos) c Hc Hm. unfold mask_domain_next. fold c.
  cbn [d_mark d_count d_counter d_maxit d_ranges d_cur d_port d_dynamic].
  replace (d_count d <? c) with false by lia.
  replace (negb (d_maxit d =? 0) && (d_maxit d <? c))%bool with false by (destruct Hm; lia).
  rewrite El, Hr.
  pose proof (nth_error_In _ _ Hr) as Hin. pose proof (S r Hin) as Sr.
  assert (Wr : wfr r) by (rewrite Forall_forall in W; apply W; exact Hin).
  pose proof (total_firstn_le l (Datatypes.S (d_cur d)) W) as Hle. rewrite (total_firstn_S _ _ _ Hr) in Hle.
  pose proof (total_firstn_le l (d_cur d) W) as Hle0.
  destruct (r_max r <? d_port d + 1) eqn:Eb.
  - assert (Ep : d_port d = r_max r) by lia.
    assert (Epos' : pos = total (firstn (Datatypes.S (d_cur d)) l)) by (rewrite (total_firstn_S _ _ _ Hr); unfold cnt; lia).
    destruct (length l <=? Datatypes.S (d_cur d))%nat eqn:El2.
    + apply Nat.leb_le in El2. assert (Hn : pos = total l) by (rewrite Epos', firstn_all2 by lia; reflexivity).
      destruct (nth_error l 0) as [r0|] eqn:H0; [|destruct l; [destruct (d_cur d); discriminate|discriminate]].
      exists (Dom (d_mark d) (d_count d) c (d_maxit d) l 0 (r_min r0) (d_dynamic d)), (r_addr r0), (r_min r0), false.
      assert (Hw : wrap (total l) pos = 0) by (unfold wrap; rewrite Hn, Z.eqb_refl; reflexivity). rewrite Hw.
      assert (S0 : r_min r0 <= r_max r0) by (apply S; eapply nth_error_In; exact H0).
      split; [reflexivity|]. split.
      { rewrite <- (Z.add_0_r (r_min r0)). apply (addrs_nth l 0 r0 0); auto. unfold cnt. lia. }
      split. { split; [reflexivity|]. exists r0. cbn [d_cur d_port firstn total]. split; [exact H0|]. lia. }
      cbn [d_counter d_count d_maxit d_cur d_port]. repeat (split; [reflexivity|]). split; [discriminate|]. split; [|exists r0; auto].
      intros _ r' Hr' Ha Hpp. injection Hr' as <-. exfalso.
      destruct (Nat.eq_dec (d_cur d) 0) as [Ez|Ez].
      { rewrite Ez in Hr. rewrite Hr in H0. injection H0 as ->. lia. }
      pose proof (ordered_nth l 0 (d_cur d) r0 r O ltac:(lia) H0 Hr) as B. unfold before in B. lia.
    + apply Nat.leb_gt in El2. destruct (nth_error l (Datatypes.S (d_cur d))) as [r1|] eqn:H1; [|apply nth_error_None in H1; lia].
      exists (Dom (d_mark d) (d_count d) c (d_maxit d) l (Datatypes.S (d_cur d)) (r_min r1) (d_dynamic d)), (r_addr r1), (r_min r1), false.
      assert (S1 : r_min r1 <= r_max r1) by (apply S; eapply nth_error_In; exact H1).
      assert (Hw : wrap (total l) pos = pos).
      { unfold wrap. replace (pos =? total l) with false; [reflexivity|].
        pose proof (total_firstn_le l (Datatypes.S (Datatypes.S (d_cur d))) W) as H2. rewrite (total_firstn_S _ _ _ H1) in H2. unfold cnt in H2. lia. }
      rewrite Hw. split; [reflexivity|]. split.
      { rewrite <- (Z.add_0_r (r_min r1)). rewrite Epos'. rewrite <- (Z.add_0_r (total _)). apply (addrs_nth l); auto. unfold cnt. lia. }
      split. { split; [reflexivity|]. exists r1. cbn [d_cur d_port]. split; [exact H1|]. lia. }
      cbn [d_counter d_count d_maxit d_cur d_port]. repeat (split; [reflexivity|]). split; [discriminate|]. split; [|exists r1; auto].
      intros _ r' Hr' Ha Hpp. injection Hr' as <-. exfalso.
      pose proof (ordered_nth l (d_cur d) (Datatypes.S (d_cur d)) r r1 O ltac:(lia) Hr H1) as B. unfold before in B. lia.
  - exists (Dom (d_mark d) (d_count d) c (d_maxit d) l (d_cur d) (d_port d + 1) (d_dynamic d)), (r_addr r), (d_port d + 1), (negb (c =? 1)).
    assert (Hw : wrap (total l) pos = pos).
    { unfold wrap. replace (pos =? total l) with false; [reflexivity|]. unfold cnt in *. lia. }
    rewrite Hw. split; [reflexivity|]. split.
    { replace (d_port d + 1) with (r_min r + (d_port d - r_min r + 1)) by lia. rewrite Epos. apply (addrs_nth l); auto. unfold cnt. lia. }
    split. { split; [reflexivity|]. exists r. cbn [d_cur d_port]. split; [exact Hr|]. lia. }
    cbn [d_counter d_count d_maxit d_cur d_port]. repeat (split; [reflexivity|]). split.
    { intros Hf. split; [lia|]. exists r. auto. }
    split; [|exists r; auto]. intros Hne _ _ _ _. lia.
Qed.

Lemma skipn_nth : forall (A : Type) (l : list A) c x, nth_error l c = Some x -> skipn c l = x :: skipn (S c) l.
Proof. induction l as [|y l IH]; intros c x H; [destruct c; discriminate|]. destruct c; cbn in H; [injection H as ->; reflexivity|]. cbn [skipn]. apply IH. exact H. Qed.

Definition lim (count maxit : Z) : Z := if maxit =? 0 then count else Z.min maxit count.

Lemma enum_ok : forall fuel l off d c, Forall wfr l -> ordered l -> solidr l -> total l < 2^32 - 1 -> 0 <= off < total l ->
  d_counter d = c -> 0 <= c <= lim (total l) (d_maxit d) -> d_count d = total l -> 0 <= d_maxit d ->
  (exists pos, at_ l d pos /\ wrap (total l) pos = (off + c) mod total l) ->
  lim (total l) (d_maxit d) - c < Z.of_nat fuel ->
  exists out, enum fuel d = Ok out /\
    map fst out = firstn (Z.to_nat (lim (total l) (d_maxit d) - c)) (skipn (Z.to_nat c) (rot (Z.to_nat off) (addrs l))) /\
    forall prev, (c = 0 -> prev = None) -> (c <> 0 -> exists r, nth_error l (d_cur d) = Some r /\ prev = Some (r_addr r, d_port d)) ->
      consecutive_ok prev out.
Proof.
  induction fuel as [|fuel IH]; intros l off d c W O S Ht Ho Ec Hc Ecnt Hm (pos & Hat & Hpos) Hf; [lia|].
  change (2^32) with 4294967296 in *. set (n := total l) in *.
  assert (Hln : Z.of_nat (length (addrs l)) = n) by (apply addrs_len; exact W).
  cbn [enum]. destruct (Z.eq_dec c (lim n (d_maxit d))) as [E|E].
  - (* exhausted *)
    assert (Hx : exists d', mask_domain_next d = Ok (d', Datatypes.inr tt)).
    { unfold mask_domain_next. cbn [d_mark d_count d_counter d_maxit d_ranges d_cur d_port d_dynamic]. rewrite Ec.
      rewrite u32_small by (unfold is_u32, lim in *; change (2^32) with 4294967296; destruct (d_maxit d =? 0); lia).
      rewrite Ecnt. unfold lim in E. destruct (n <? c + 1) eqn:E1; [eexists; reflexivity|].
      destruct (d_maxit d =? 0) eqn:E2; [lia|]. cbn [negb]. replace (d_maxit d <? c + 1) with true by lia. eexists; reflexivity. }
    destruct Hx as (d' & ->). cbn [bind]. exists []. split; [reflexivity|]. split; [|intros; exact I].
    rewrite E, Z.sub_diag. reflexivity.
  - assert (Hlt : c < lim n (d_maxit d)) by lia.
    assert (Hcn : c < n) by (unfold lim in Hlt; destruct (d_maxit d =? 0); lia).
    destruct (next_ok l d pos W O S Hat) as (d' & a & p & f & En & Hnth & Hat' & K1 & K2 & K3 & K4 & K5 & (rr & K6 & K7 & K8)).
    { rewrite Ec. rewrite u32_small by (unfold is_u32; change (2^32) with 4294967296; lia). lia. }
    { rewrite Ec. rewrite u32_small by (unfold is_u32; change (2^32) with 4294967296; lia). unfold lim in Hlt. destruct (d_maxit d =? 0) eqn:Em; [left; lia|right; lia]. }
    rewrite Ec in K1, K4, K5. rewrite u32_small in K1, K4, K5 by (unfold is_u32; change (2^32) with 4294967296; lia).
    rewrite En. cbn [bind]. fold n in Hnth, Hat'.
    destruct (IH l off d' (c + 1)) as (out & Eo & Hout & Hcons); try assumption; fold n.
    + rewrite K3. lia.
    + rewrite K2. exact Ecnt.
    + rewrite K3. exact Hm.
    + exists (wrap n pos + 1). split; [exact Hat'|]. rewrite Hpos.
      pose proof (Z.mod_pos_bound (off + c) n ltac:(lia)) as Hb.
      replace (off + (c + 1)) with (off + c + 1) by lia. rewrite <- (Zplus_mod_idemp_l (off + c) 1 n).
      unfold wrap. destruct ((off + c) mod n + 1 =? n) eqn:E2.
      * apply Z.eqb_eq in E2. rewrite E2. symmetry. apply Z_mod_same_full.
      * symmetry. apply Z.mod_small. lia.
    + rewrite K3. lia.
    + rewrite Eo. cbn [bind]. exists ((a, p, f) :: out). split; [reflexivity|]. split.
      * cbn [map fst]. rewrite Hout, K3. fold n.
        assert (Hr : nth_error (rot (Z.to_nat off) (addrs l)) (Z.to_nat c) = Some (a, p)).
        { rewrite rot_nth by lia. rewrite <- Hnth, Hpos. f_equal.
          destruct (Nat.ltb_spec (Z.to_nat off + Z.to_nat c) (length (addrs l))).
          - rewrite Z.mod_small by lia. lia.
          - replace ((off + c) mod n) with (off + c - n); [lia|]. apply (Zmod_unique _ _ 1); lia. }
        rewrite (skipn_nth _ _ _ _ Hr). replace (Z.to_nat (c + 1)) with (Datatypes.S (Z.to_nat c)) by lia.
        replace (Z.to_nat (lim n (d_maxit d) - c)) with (Datatypes.S (Z.to_nat (lim n (d_maxit d) - (c + 1)))) by lia. reflexivity.
      * intros prev P1 P2. cbn [consecutive_ok]. split.
        { split.
          - intros Hf1. destruct (K4 Hf1) as (Hne & r & Hr & Ha & Hp). destruct (P2 ltac:(lia)) as (r' & Hr' & ->).
            rewrite Hr in Hr'. injection Hr' as <-. rewrite Ha. do 2 f_equal. lia.
          - intros ->. destruct (Z.eq_dec c 0) as [E0|E0]; [specialize (P1 E0); discriminate|].
            destruct (P2 E0) as (r & Hr & E1). injection E1 as -> E1. apply (K5 ltac:(lia) r Hr eq_refl). lia. }
        apply Hcons; [lia|]. intros _. exists rr. rewrite K7, K8. split; [exact K6|reflexivity].
Qed.

Lemma enum_mono : forall fuel d out, enum fuel d = Ok out -> forall fuel', (fuel <= fuel')%nat -> enum fuel' d = Ok out.
Proof.
  induction fuel as [|fuel IH]; intros d out H fuel' Hle; [discriminate|]. destruct fuel' as [|fuel']; [lia|]. cbn [enum] in *.
  destruct (mask_domain_next d) as [[d' [y|u]]| |]; cbn [bind] in *; try discriminate; [|exact H].
  destruct (enum fuel d') as [l| |] eqn:E; cbn [bind] in H; try discriminate. rewrite (IH d' l E fuel' ltac:(lia)). exact H.
Qed.
