(** Lemmas about the global settings. *)
Require Import Verif.Base Verif.Addr_Model Verif.Addr_Spec Verif.Addr_Proofs Verif.Deny_Spec Verif.Deny_Proofs Verif.Hdr_Spec Verif.Glob_Model Verif.Glob_Spec.
Require Verif.KeyPaging.
Require Import Permutation Sorted.

(** ** Plateaus *)

Inductive falling : list Z -> Prop :=
| f_nil : falling []
| f_cons x l : (forall y, In y l -> y <= x) -> falling l -> falling (x :: l).
Lemma insert_perm : forall x l, Permutation (insert_desc x l) (x :: l).
Proof.
  intros x l. induction l as [|y t IH]; [reflexivity|]. cbn [insert_desc]. destruct (y <? x); [reflexivity|].
  rewrite IH. apply perm_swap.
Qed.
Lemma sort_perm : forall l, Permutation (sort_desc l) l.
Proof. intros l. induction l as [|x l IH]; [reflexivity|]. unfold sort_desc in *. cbn [fold_right]. rewrite insert_perm, IH. reflexivity. Qed.
Lemma insert_falling : forall x l, falling l -> falling (insert_desc x l).
Proof.
  intros x l H. induction H as [|y l F H IH]; cbn [insert_desc]; [constructor; [intros y []|constructor]|].
  destruct (Z.ltb_spec y x).
  - constructor; [|constructor; assumption]. intros z [->|Hz]; [lia|]. specialize (F z Hz). lia.
  - constructor; [|exact IH]. intros z Hz. apply (Permutation_in z (insert_perm x l)) in Hz. destruct Hz as [<-|Hz]; [lia|apply F; exact Hz].
Qed.
Lemma sort_falling : forall l, falling (sort_desc l).
Proof. intros l. induction l as [|x l IH]; [constructor|]. apply insert_falling. exact IH. Qed.

Fixpoint uniq (a : Z) (l : list Z) : list Z :=
  match l with
  | [] => [a]
  | x :: t => if x =? 0 then [a] else if a =? x then uniq a t else a :: uniq x t
  end.
Lemma uniq_length : forall l a, (1 <= length (uniq a l) <= S (length l))%nat.
Proof. induction l as [|x l IH]; intros a; cbn [uniq length]; [lia|]. destruct (x =? 0); [cbn; lia|]. destruct (a =? x); [specialize (IH a); lia|]. cbn [length]. specialize (IH x). lia. Qed.
Lemma uniq_spec : forall l a, falling (a :: l) -> (forall x, In x (a :: l) -> 0 <= x) -> a <> 0 -> normal (a :: l) (uniq a l).
Proof.
  induction l as [|x l IH]; intros a F P N.
  - cbn. split; [constructor; [intros y []|constructor]|]. intros y. cbn. split; [intros [<-|[]]; auto|intros [[<-|[]] _]; auto].
  - cbn [uniq]. inversion F as [|? ? F1 F2]; subst. inversion F2 as [|? ? F3 F4]; subst.
    destruct (Z.eqb_spec x 0) as [->|Nx].
    + split; [constructor; [intros y []|constructor]|]. intros y. split; [intros [<-|[]]; split; [left; reflexivity|exact N]|].
      intros [[<-|[<-|Hy]] Ny]; [left; reflexivity|lia|]. specialize (F3 y Hy). pose proof (P y (or_intror (or_intror Hy))). lia.
    + destruct (Z.eqb_spec a x) as [<-|Nax].
      * destruct (IH a) as [D E]; [constructor; auto|intros y Hy; apply P; destruct Hy; [left; auto|right; right; auto]|exact N|]. split; [exact D|]. intros y. rewrite E. cbn [In]. tauto.
      * destruct (IH x) as [D E]; [exact F2|intros y Hy; apply P; right; exact Hy|exact Nx|]. split.
        -- constructor; [|exact D]. intros y Hy. apply E in Hy. destruct Hy as [[<-|Hy] _]; [specialize (F1 x (or_introl eq_refl)); lia|]. specialize (F3 y Hy). specialize (F1 x (or_introl eq_refl)). lia.
        -- intros y. split.
           ++ intros [<-|Hy]; [split; [left; reflexivity|exact N]|]. apply E in Hy. split; [right; apply Hy|apply Hy].
           ++ intros [[<-|Hy] Ny]; [left; reflexivity|]. right. apply E. split; assumption.
Qed.
Lemma nth_at : forall (a b : list Z) x, nth (length a) (a ++ x :: b) 0 = x.
Proof. intros a b x. rewrite app_nth2 by lia. rewrite Nat.sub_diag. reflexivity. Qed.
Lemma set_nth_at : forall (a b : list Z) x y, set_nth (length a) y (a ++ x :: b) = a ++ y :: b.
Proof.
  intros a b x y. unfold set_nth. rewrite firstn_app, Nat.sub_diag, firstn_all, app_nil_r. f_equal. f_equal.
  change (S (length a)) with (1 + length a)%nat. rewrite Nat.add_comm. replace (length a + 1)%nat with (length (a ++ [x])) by (rewrite app_length; reflexivity).
  replace (a ++ x :: b) with ((a ++ [x]) ++ b) by (rewrite <- app_assoc; reflexivity). rewrite skipn_app, skipn_all, Nat.sub_diag. reflexivity.
Qed.
Lemma compact_spec : forall n pre a mid suf, (n <= length suf)%nat ->
  exists tail, compact n (length pre) (S (length pre) + length mid) (pre ++ a :: mid ++ suf) = (length pre + length (uniq a (firstn n suf)) - 1, pre ++ uniq a (firstn n suf) ++ tail)%nat /\
    length (pre ++ uniq a (firstn n suf) ++ tail) = length (pre ++ a :: mid ++ suf) /\ (forall x, In x tail -> In x (a :: mid ++ suf)).
Proof.
  induction n as [|n IH]; intros pre a mid suf Hn.
  - exists (mid ++ suf). cbn [compact firstn uniq app length]. rewrite !app_length. cbn [length]. split; [f_equal; lia|]. split; [lia|]. intros x Hx. right. exact Hx.
  - destruct suf as [|v suf]; [cbn in Hn; lia|]. cbn [length] in Hn. cbn [compact firstn uniq].
    assert (Ej : nth (S (length pre) + length mid) (pre ++ a :: mid ++ v :: suf) 0 = v).
    { replace (pre ++ a :: mid ++ v :: suf) with ((pre ++ a :: mid) ++ v :: suf) by (rewrite <- app_assoc; reflexivity).
      replace (S (length pre) + length mid)%nat with (length (pre ++ a :: mid)) by (rewrite app_length; cbn [length]; lia). apply nth_at. }
    assert (Ei : nth (length pre) (pre ++ a :: mid ++ v :: suf) 0 = a) by apply nth_at.
    rewrite Ej, Ei. destruct (v =? 0) eqn:Ev.
    + exists (mid ++ v :: suf). cbn [app length]. rewrite !app_length. split; [f_equal; lia|]. split; [cbn [length]; rewrite app_length; lia|]. intros x Hx. right. exact Hx.
    + destruct (Z.eqb_spec a v) as [<-|Nav]; cbn [negb].
      * destruct (IH pre a (mid ++ [a]) suf ltac:(lia)) as (tail & E & L & I). rewrite <- app_assoc in *. cbn [app] in *. rewrite app_length in E. cbn [length] in E.
        replace (S (S (length pre) + length mid))%nat with (S (length pre) + (length mid + 1))%nat by lia. exists tail. auto.
      * set (r := mid ++ v :: suf). assert (Er : exists b q, mid ++ [v] = b :: q) by (destruct mid as [|b q]; [exists v, []|exists b, (q ++ [v])]; reflexivity).
        destruct Er as (b & q & Er). assert (Er' : r = b :: q ++ suf) by (unfold r; change (v :: suf) with ([v] ++ suf); rewrite app_assoc, Er; reflexivity).
        rewrite Er'. replace (pre ++ a :: b :: q ++ suf) with ((pre ++ [a]) ++ b :: q ++ suf) by (rewrite <- app_assoc; reflexivity).
        replace (S (length pre)) with (length (pre ++ [a])) by (rewrite app_length; cbn [length]; lia). rewrite set_nth_at.
        destruct (IH (pre ++ [a]) v q suf ltac:(lia)) as (tail & E & L & I). exists tail.
        assert (Lq : length q = length mid) by (apply (f_equal (@length Z)) in Er; rewrite app_length in Er; cbn in Er; lia).
        replace (S (length (pre ++ [a]) + length mid))%nat with (S (length (pre ++ [a])) + length q)%nat by lia. rewrite E.
        pose proof (uniq_length (firstn n suf) v). split.
        { f_equal; [rewrite app_length; cbn [length]; lia|rewrite <- app_assoc; reflexivity]. }
        split; [rewrite <- !app_assoc in L |- *; cbn [app] in *; rewrite L; rewrite !app_length; cbn [length]; lia|].
        intros x Hx. apply I in Hx. right. destruct Hx as [<-|Hx]; [|right; exact Hx].
        rewrite <- Er'. unfold r. apply in_or_app. right. left. reflexivity.
Qed.

(** The list read: what was in the memory matters only if it is empty. *)
Lemma read_plateaus_ok : forall l p, 0 <= count p -> count p + Z.of_nat (length l) <= 64 -> length (values p) = 64%nat ->
  exists vs, read_plateaus l p = (OK, Plateaus vs (count p + Z.of_nat (length l))) /\ length vs = 64%nat /\
    firstn (Z.to_nat (count p) + length l) vs = firstn (Z.to_nat (count p)) (values p) ++ l /\ (Forall is_u16 l -> Forall is_u16 (values p) -> Forall is_u16 vs) /\
    skipn (Z.to_nat (count p) + length l) vs = skipn (Z.to_nat (count p) + length l) (values p).
Proof.
  induction l as [|x l IH]; intros p Hc Hl Hv; cbn [read_plateaus length] in *.
  - exists (values p). rewrite Z.add_0_r, Nat.add_0_r, app_nil_r. destruct p; auto.
  - destruct (Z.leb_spec 64 (count p)); [lia|].
    set (vs1 := set_nth (Z.to_nat (count p)) x (values p)).
    assert (L1 : length vs1 = 64%nat) by (unfold vs1, set_nth; rewrite app_length, firstn_length; cbn [length]; rewrite skipn_length; lia).
    destruct (IH (Plateaus vs1 (count p + 1))) as (vs & E & L & F & U & Sk); cbn [count values]; [lia|lia|exact L1|]. cbn [count values] in *.
    exists vs. split; [rewrite E; f_equal; f_equal; lia|]. split; [exact L|]. replace (Z.to_nat (count p + 1)) with (S (Z.to_nat (count p))) in * by lia.
    assert (Lf : length (firstn (Z.to_nat (count p)) (values p)) = Z.to_nat (count p)) by (rewrite firstn_length; lia).
    split; [|split].
    + replace (Z.to_nat (count p) + S (length l))%nat with (S (Z.to_nat (count p)) + length l)%nat by lia. rewrite F. unfold vs1, set_nth.
      rewrite firstn_app, Lf. rewrite firstn_all2 by lia. replace (S (Z.to_nat (count p)) - Z.to_nat (count p))%nat with 1%nat by lia. cbn [firstn]. rewrite <- app_assoc. reflexivity.
    + intros Hu Hp. inversion Hu; subst. apply U; [assumption|]. unfold vs1, set_nth. apply Forall_app. split.
      * apply Forall_forall. intros y Hy. rewrite Forall_forall in Hp. apply Hp. rewrite <- (firstn_skipn (Z.to_nat (count p)) (values p)). apply in_or_app. left. exact Hy.
      * constructor; [assumption|]. apply Forall_forall. intros y Hy. rewrite Forall_forall in Hp. apply Hp. rewrite <- (firstn_skipn (S (Z.to_nat (count p))) (values p)). apply in_or_app. right. exact Hy.
    + replace (Z.to_nat (count p) + S (length l))%nat with (S (Z.to_nat (count p)) + length l)%nat by lia. rewrite Sk. unfold vs1, set_nth.
      rewrite skipn_app, Lf. rewrite skipn_all2 by lia. cbn [app]. replace (S (Z.to_nat (count p)) + length l - Z.to_nat (count p))%nat with (S (length l)) by lia.
      cbn [skipn]. clear. generalize (values p). generalize (Z.to_nat (count p)) as k. intros k v. revert v.
      induction k as [|k IHk]; intros v; [destruct v; [destruct (length l)|]; reflexivity|]. destruct v as [|z v]; [rewrite !skipn_nil; reflexivity|]. cbn [skipn Nat.add]. apply (IHk v).
Qed.
Lemma read_plateaus_many : forall l p, 0 <= count p <= 64 -> 64 < count p + Z.of_nat (length l) -> exists p', read_plateaus l p = (Err EINVAL, p').
Proof.
  induction l as [|x l IH]; intros p Hc Hl; cbn [read_plateaus length] in *; [lia|].
  destruct (Z.leb_spec 64 (count p)); [eexists; reflexivity|]. apply IH; cbn [count]; lia.
Qed.

Lemma zero_head : forall s, falling s -> Forall is_u16 s -> hd 0 s = 0 -> forall x, In x s -> x = 0.
Proof.
  intros s F U H x Hx. destruct F as [|y l F1 F2]; [destruct Hx|]. cbn in H. subst y. rewrite Forall_forall in U. pose proof (U x Hx) as B. unfold is_u16 in B.
  destruct Hx as [<-|Hx]; [reflexivity|]. specialize (F1 x Hx). lia.
Qed.
Lemma Forall_firstn : forall (P : Z -> Prop) n l, Forall P l -> Forall P (firstn n l).
Proof. intros P n l H. rewrite <- (firstn_skipn n l) in H. apply Forall_app in H. apply H. Qed.
Lemma Forall_skipn : forall (P : Z -> Prop) n l, Forall P l -> Forall P (skipn n l).
Proof. intros P n l H. rewrite <- (firstn_skipn n l) in H. apply Forall_app in H. apply H. Qed.

(** All of it, for lists that are not empty. *)
Lemma plateaus_cases : forall l p, length (values p) = 64%nat -> Forall is_u16 (values p) -> Forall is_u16 l -> l <> [] ->
  if (64 <? Z.of_nat (length l)) then exists p', jnla_get_plateaus l p = (Err EINVAL, p')
  else if forallb (Z.eqb 0) l then exists p', jnla_get_plateaus l p = (Err EINVAL, p')
  else exists p', jnla_get_plateaus l p = (OK, p') /\ normal l (stored p') /\ wt_plateaus p' /\ 1 <= count p'.
Proof.
  intros l p Hv Hu Hl Hn. unfold jnla_get_plateaus. destruct (Z.ltb_spec 64 (Z.of_nat (length l))) as [Hm|Hm].
  - destruct (read_plateaus_many l (Plateaus (values p) 0)) as (p' & ->); cbn [count]; [lia|lia|]. eexists; reflexivity.
  - destruct (read_plateaus_ok l (Plateaus (values p) 0)) as (vs & E & L & F & U & _); cbn [count values]; [lia|lia|exact Hv|]. cbn [count values] in *. rewrite E.
    change (Z.to_nat 0) with 0%nat in F. cbn [Nat.add firstn app] in F. specialize (U Hl Hu). unfold validate_plateaus. cbn [count values].
    replace (Z.to_nat (0 + Z.of_nat (length l))) with (length l) by lia. rewrite F. set (rest := skipn (length l) vs). set (s := sort_desc l).
    assert (Ps : Permutation s l) by apply sort_perm. assert (Fs : falling s) by apply sort_falling.
    assert (Ls : length s = length l) by (apply Permutation_length; exact Ps).
    assert (Us : Forall is_u16 s) by (apply Forall_forall; intros x Hx; rewrite Forall_forall in Hl; apply Hl; eapply Permutation_in; eassumption).
    assert (Ur : Forall is_u16 rest) by (apply Forall_skipn; exact U).
    assert (Lr : (length s + length rest = 64)%nat) by (unfold rest; rewrite skipn_length; lia).
    destruct s as [|a t] eqn:Es; [destruct l; [congruence|discriminate]|]. cbn [length] in Ls.
    replace (length l - 1)%nat with (length t) by lia.
    destruct (compact_spec (length t) [] a [] (t ++ rest)) as (tail & E1 & L1 & I1); [rewrite app_length; lia|]. cbn [length app Nat.add] in *. rewrite E1.
    replace (firstn (length t) (t ++ rest)) with t in * by (rewrite firstn_app, firstn_all, Nat.sub_diag; cbn [firstn]; rewrite app_nil_r; reflexivity).
    assert (Hd : nth 0 (uniq a t ++ tail) 0 = a).
    { clear. assert (H : forall t a, exists q, uniq a t = a :: q) by (clear; induction t as [|x t IH]; intros a; cbn [uniq]; [eauto|]; destruct (x =? 0); [eauto|]; destruct (Z.eqb_spec a x); [apply IH|eauto]).
      destruct (H t a) as (q & ->). reflexivity. }
    rewrite Hd. pose proof (uniq_length t a) as Lu.
    destruct (forallb (Z.eqb 0) l) eqn:Ef.
    + rewrite forallb_forall in Ef. assert (In a l) by (eapply Permutation_in; [exact Ps|left; reflexivity]). apply Ef in H. apply Z.eqb_eq in H. subst a. cbn. eexists; reflexivity.
    + destruct (Z.eqb_spec a 0) as [->|Na].
      { exfalso. assert (forallb (Z.eqb 0) l = true); [|congruence]. apply forallb_forall. intros x Hx. apply Z.eqb_eq. symmetry.
        apply (zero_head _ Fs Us eq_refl). eapply Permutation_in; [symmetry; exact Ps|exact Hx]. }
      eexists. split; [reflexivity|]. unfold stored, wt_plateaus. cbn [count values]. replace (Z.to_nat (Z.of_nat (length (uniq a t) - 1) + 1)) with (length (uniq a t)) by lia.
      rewrite firstn_app, firstn_all, Nat.sub_diag. cbn [firstn]. rewrite app_nil_r.
      destruct (uniq_spec t a Fs) as [D S]; [intros x Hx; rewrite Forall_forall in Us; specialize (Us x Hx); unfold is_u16 in Us; lia|exact Na|]. split.
      * split; [exact D|]. intros x. rewrite S. split; intros [Hx Hz]; (split; [|exact Hz]); eapply Permutation_in; try exact Hx; [exact Ps|symmetry; exact Ps].
      * split; [|lia]. rewrite L1. rewrite app_length. split; [cbn [length] in *; lia|]. split; [|lia]. apply Forall_forall. intros x Hx. apply in_app_iff in Hx.
        assert (Hall : forall y, In y (a :: t ++ rest) -> is_u16 y).
        { intros y [<-|Hy]; [rewrite Forall_forall in Us; apply Us; left; reflexivity|]. apply in_app_iff in Hy. destruct Hy as [Hy|Hy]; [rewrite Forall_forall in Us; apply Us; right; exact Hy|rewrite Forall_forall in Ur; apply Ur; exact Hy]. }
        destruct Hx as [Hx|Hx]; [|apply Hall, I1; exact Hx]. apply S in Hx. destruct Hx as [[<-|Hx] _]; apply Hall; [left; reflexivity|right; apply in_or_app; left; exact Hx].
Qed.
(** The empty list: the first of the previous values. *)
Lemma plateaus_empty : forall p, jnla_get_plateaus [] p = (if nth 0 (values p) 0 =? 0 then Err EINVAL else OK, Plateaus (values p) (if nth 0 (values p) 0 =? 0 then 0 else 1)).
Proof. intros p. unfold jnla_get_plateaus, validate_plateaus. cbn. destruct (nth 0 (values p) 0 =? 0); reflexivity. Qed.
Lemma descending_nodup : forall l, descending l -> NoDup l.
Proof. intros l H. induction H as [|x l F H IH]; constructor; [|exact IH]. intros X. specialize (F x X). lia. Qed.

(** ** One attribute *)

Definition num_ok (id v : Z) : Prop :=
  if is_boolean_setting id then boolean v
  else if id =? JNLAG_TOS then 0 <= v < 256
  else if id =? JNLAG_HAIRPIN_MODE then 0 <= v <= 2
  else if id =? JNLAG_F_ARGS then 0 <= v <= 15
  else if id =? JNLAG_LOWEST_IPV6_MTU then 1280 <= v < 2 ^ 32
  else if id =? JNLAG_TTL_UDP then 120000 <= v < 2 ^ 32
  else if id =? JNLAG_TTL_TCP_EST then 7200000 <= v < 2 ^ 32
  else if id =? JNLAG_TTL_TCP_TRANS then 240000 <= v < 2 ^ 32
  else 0 <= v < 2 ^ 32.
Definition numeric (id : Z) : Prop := id <> JNLAG_POOL6 /\ id <> JNLAG_PLATEAUS /\ id <> JNLAG_POOL6791V6 /\ id <> JNLAG_POOL6791V4.
Definition plateaus_ok (p : mtu_plateaus) : Prop :=
  stored p <> [] /\ descending (stored p) /\ (forall x, In x (stored p) -> 0 < x < 65536) /\ (length (stored p) <= 64)%nat.
Lemma documented_iff : forall xt g, xt = XT_SIIT \/ xt = XT_NAT64 ->
  documented xt g <->
  (forall id, setting_of xt id -> numeric id -> num_ok id (num g id)) /\
  (set6 (pool6 g) = true -> network6 (pre6 (pool6 g)) /\ rfc6052_len (p6_len (pre6 (pool6 g)))) /\ plateaus_ok (plateaus g) /\
  (xt = XT_SIIT -> (set6 (p6791v6 g) = true -> network6 (pre6 (p6791v6 g))) /\ (set4 (p6791v4 g) = true -> network4 (pre4 (p6791v4 g)))).
Proof.
  intros xt g Hx. unfold documented. split.
  - intros ([C1 C2 C3 C4 C5] & S & N). split; [|split; [exact C4|split; [exact C5|intros E; destruct (S E) as [_ _ S3 S4]; auto]]].
    intros id H (N1 & N2 & N3 & N4). unfold num_ok. unfold JNLAG_POOL6, JNLAG_PLATEAUS, JNLAG_POOL6791V6, JNLAG_POOL6791V4 in *.
    destruct H as [H|[[E H]|[E H]]].
    + assert (D : id = 1 \/ id = 3 \/ id = 4 \/ id = 5 \/ id = 6 \/ id = 7) by lia.
      destruct D as [->|[->|[->|[->|[->| ->]]]]]; cbn; try (apply C3; cbn; tauto); [exact C1|exact C2].
    + destruct (S E) as [S1 S2 S3 S4]. assert (D : id = 9 \/ id = 10 \/ id = 11) by lia.
      destruct D as [->|[->| ->]]; cbn; try (apply S1; cbn; tauto). exact S2.
    + destruct (N E) as [M1 M2 M3 M4 M5 M6].
      assert (D : id = 14 \/ id = 15 \/ id = 16 \/ id = 17 \/ id = 18 \/ id = 19 \/ id = 20 \/ id = 21 \/ id = 22 \/ id = 23 \/ id = 24 \/ id = 25 \/ id = 26 \/ id = 27 \/ id = 28 \/ id = 29 \/ id = 30 \/ id = 31 \/ id = 32) by lia.
      repeat (destruct D as [->|D]); [..|subst id]; cbn; first [apply M1; cbn; tauto|exact M2|exact M3|exact M4|exact M5|apply M6; cbn; tauto].
  - intros (A & B & C & D).
    assert (A' : forall id, numeric id -> setting_of xt id -> num_ok id (num g id)) by auto. clear A. rename A' into A.
    assert (Q : forall id, (numeric id -> setting_of xt id -> num_ok id (num g id)) -> numeric id -> setting_of xt id -> num_ok id (num g id)) by auto.
    split; [|split; intros E].
    + constructor; try assumption.
      * assert (X := A 3). apply X; unfold numeric, setting_of, JNLAG_POOL6, JNLAG_PLATEAUS, JNLAG_POOL6791V6, JNLAG_POOL6791V4; lia.
      * assert (X := A 7). apply X; unfold numeric, setting_of, JNLAG_POOL6, JNLAG_PLATEAUS, JNLAG_POOL6791V6, JNLAG_POOL6791V4; lia.
      * intros i Hi. assert (X := A i). cbn in Hi. unfold JNLAG_ENABLED, JNLAG_DEBUG, JNLAG_RESET_TC, JNLAG_RESET_TOS in Hi.
        repeat (destruct Hi as [<-|Hi]; [apply X; unfold numeric, setting_of, JNLAG_POOL6, JNLAG_PLATEAUS, JNLAG_POOL6791V6, JNLAG_POOL6791V4; lia|]). destruct Hi.
    + subst xt. destruct (D eq_refl). constructor; try assumption.
      * intros i Hi. assert (X := A i). cbn in Hi. unfold JNLAG_COMPUTE_CSUM_ZERO, JNLAG_RANDOMIZE_ERROR_ADDR in Hi.
        repeat (destruct Hi as [<-|Hi]; [apply X; unfold numeric, setting_of, JNLAG_POOL6, JNLAG_PLATEAUS, JNLAG_POOL6791V6, JNLAG_POOL6791V4; lia|]). destruct Hi.
      * assert (X := A 10). apply X; unfold numeric, setting_of, JNLAG_POOL6, JNLAG_PLATEAUS, JNLAG_POOL6791V6, JNLAG_POOL6791V4; lia.
    + subst xt. constructor.
      * intros i Hi. assert (X := A i). cbn in Hi. unfold JNLAG_DROP_BY_ADDR, JNLAG_DROP_EXTERNAL_TCP, JNLAG_DROP_ICMP6_INFO, JNLAG_SRC_ICMP6_BETTER, JNLAG_HANDLE_RST, JNLAG_BIB_LOGGING, JNLAG_SESSION_LOGGING, JNLAG_JOOLD_ENABLED, JNLAG_JOOLD_FLUSH_ASAP in Hi.
        repeat (destruct Hi as [<-|Hi]; [apply X; unfold numeric, setting_of, JNLAG_POOL6, JNLAG_PLATEAUS, JNLAG_POOL6791V6, JNLAG_POOL6791V4; lia|]). destruct Hi.
      * assert (X := A 18). apply X; unfold numeric, setting_of, JNLAG_POOL6, JNLAG_PLATEAUS, JNLAG_POOL6791V6, JNLAG_POOL6791V4; lia.
      * assert (X := A 22). apply X; unfold numeric, setting_of, JNLAG_POOL6, JNLAG_PLATEAUS, JNLAG_POOL6791V6, JNLAG_POOL6791V4; lia.
      * assert (X := A 20). apply X; unfold numeric, setting_of, JNLAG_POOL6, JNLAG_PLATEAUS, JNLAG_POOL6791V6, JNLAG_POOL6791V4; lia.
      * assert (X := A 21). apply X; unfold numeric, setting_of, JNLAG_POOL6, JNLAG_PLATEAUS, JNLAG_POOL6791V6, JNLAG_POOL6791V4; lia.
      * intros i Hi. assert (X := A i). cbn in Hi. unfold JNLAG_TTL_ICMP, JNLAG_MAX_STORED_PKTS, JNLAG_JOOLD_FLUSH_DEADLINE, JNLAG_JOOLD_CAPACITY, JNLAG_JOOLD_MAX_PAYLOAD, JNLAG_JOOLD_MAX_SESSIONS_PER_PACKET in Hi.
        repeat (destruct Hi as [<-|Hi]; [apply X; unfold numeric, setting_of, JNLAG_POOL6, JNLAG_PLATEAUS, JNLAG_POOL6791V6, JNLAG_POOL6791V4; lia|]). destruct Hi.
Qed.

Lemma policy_kind : forall xt id v, xt = XT_SIIT \/ xt = XT_NAT64 -> kind_ok (policy xt id) v = true <-> right_kind xt id v.
Proof.
  intros xt id v Hx.
  destruct (Z_le_gt_dec 1 id) as [L|L]; [destruct (Z_le_gt_dec id 32) as [G|G]|].
  - assert (D : In id (map Z.of_nat (seq 1 32))) by (apply in_map_iff; exists (Z.to_nat id); split; [lia|apply in_seq; lia]).
    cbn [map seq In] in D.
    destruct Hx as [->| ->];
      (repeat (destruct D as [<-|D]; [destruct v; (split; [intros H; vm_compute in H; try discriminate; (split; [unfold setting_of, XT_SIIT, XT_NAT64; lia|]); first [left; reflexivity|right; vm_compute; tauto|vm_compute; tauto]
        |intros [S H]; unfold setting_of, XT_SIIT, XT_NAT64 in S; first [reflexivity|exfalso; lia|exfalso; vm_compute in H; intuition discriminate]])|]); destruct D).
  - assert (E : policy xt id = None).
    { assert (F : forall l, (forall x, In x l -> x <= 32) -> existsb (Z.eqb id) l = false) by (intros l Hl; apply not_true_iff_false; rewrite existsb_exists; intros (x & I & J); apply Z.eqb_eq in J; subst x; specialize (Hl id I); lia).
      unfold policy. rewrite !F by (cbn [In]; intros; lia). replace (id =? 3) with false by lia. replace (id =? 2) with false by lia. replace (id =? 8) with false by lia. replace (id =? 12) with false by lia. replace (id =? 13) with false by lia. cbn. destruct (xt =? XT_SIIT); reflexivity. }
    rewrite E. split; [destruct v; discriminate|]. intros [S _]. unfold setting_of in S. lia.
  - assert (E : policy xt id = None).
    { assert (F : forall l, (forall x, In x l -> 1 <= x) -> existsb (Z.eqb id) l = false) by (intros l Hl; apply not_true_iff_false; rewrite existsb_exists; intros (x & I & J); apply Z.eqb_eq in J; subst x; specialize (Hl id I); lia).
      unfold policy. rewrite !F by (cbn [In]; intros; lia). replace (id =? 3) with false by lia. replace (id =? 2) with false by lia. replace (id =? 8) with false by lia. replace (id =? 12) with false by lia. replace (id =? 13) with false by lia. cbn. destruct (xt =? XT_SIIT); reflexivity. }
    rewrite E. split; [destruct v; discriminate|]. intros [S _]. unfold setting_of in S. lia.
Qed.

Definition gok (xt : Z) (g : globals) : Prop := documented xt g /\ wt_globals g.
Lemma unchanged_refl : forall i g, unchanged i g g.
Proof. intros i g. unfold unchanged. auto. Qed.
Lemma unchanged_trans : forall i a b c, unchanged i a b -> unchanged i b c -> unchanged i a c.
Proof.
  intros i a b c (A1 & A2 & A3 & A4 & A5) (B1 & B2 & B3 & B4 & B5). unfold unchanged.
  split; [intros; rewrite B1, A1 by assumption; reflexivity|]. split; [intros E; rewrite B2, A2 by exact E; reflexivity|].
  split; [intros E; rewrite B3, A3 by exact E; reflexivity|]. split; [intros E; rewrite B4, A4 by exact E; reflexivity|]. intros E. rewrite B5, A5 by exact E. reflexivity.
Qed.

Lemma set_num_ok : forall xt id v g, xt = XT_SIIT \/ xt = XT_NAT64 -> numeric id -> num_ok id v -> gok xt g ->
  gok xt (set_num g id v) /\ num (set_num g id v) id = v /\ (forall i, i <> id -> unchanged i g (set_num g id v)).
Proof.
  intros xt id v g Hx Hn Hv [D W]. split; [split|split].
  - apply documented_iff in D; [|exact Hx]. apply documented_iff; [exact Hx|]. destruct D as (A & B & C & E). split; [|split; [exact B|split; [exact C|exact E]]].
    intros i Hi Ni. unfold set_num. cbn [num]. destruct (Z.eqb_spec i id) as [->|Nid]; [exact Hv|apply A; assumption].
  - exact W.
  - unfold set_num. cbn [num]. rewrite Z.eqb_refl. reflexivity.
  - intros i Ni. unfold set_num, unchanged. cbn [num pool6 plateaus p6791v6 p6791v4]. destruct (Z.eqb_spec i id); [contradiction|]. auto.
Qed.
Lemma validate_cases : forall p, prefix6_validate p = OK \/ prefix6_validate p = Err EINVAL.
Proof. intros p. unfold prefix6_validate. destruct (p6_len p >? 128); [auto|]. destruct (existsb _ _); auto. Qed.
Lemma validate4_cases : forall p, prefix4_validate p = OK \/ prefix4_validate p = Err EINVAL.
Proof. intros p. unfold prefix4_validate. destruct (p4_len p >? 32); [auto|]. cbv zeta. destruct (negb _); auto. Qed.
Lemma pool6_cases : forall p force, wt_prefix6 p ->
  pool6_validate p force = (if pool6_validate p force then OK else Err EINVAL) /\
  (pool6_validate p force = OK <-> network6 p /\ rfc6052_len (p6_len p) /\ (force = true \/ octet 16 (p6_addr p) 8 = 0)).
Proof.
  intros p force W. pose proof (prefix6_validate_spec p W) as V. pose proof (validate_cases p) as VC. unfold pool6_validate.
  assert (V' : prefix6_validate p = OK <-> network6 p) by (rewrite V; unfold network6; destruct W as [_ W]; unfold is_u8 in W; intuition lia). clear V.
  destruct VC as [E|E]; rewrite E in *.
  - assert (L : (validate_pool6_len (p6_len p) = OK /\ rfc6052_len (p6_len p)) \/ (validate_pool6_len (p6_len p) = Err EINVAL /\ ~ rfc6052_len (p6_len p))).
    { unfold validate_pool6_len, rfc6052_len. destruct (Z.eqb_spec (p6_len p) 32), (Z.eqb_spec (p6_len p) 40), (Z.eqb_spec (p6_len p) 48), (Z.eqb_spec (p6_len p) 56), (Z.eqb_spec (p6_len p) 64), (Z.eqb_spec (p6_len p) 96); cbn [orb]; first [left; split; [reflexivity|lia]|right; split; [reflexivity|lia]]. }
    destruct L as [[L1 L2]|[L1 L2]]; rewrite L1; [|split; [reflexivity|split; [discriminate|tauto]]].
    unfold validate_ubit. destruct force; cbn [orb]; [split; [reflexivity|]; tauto|]. destruct (Z.eqb_spec (octet 16 (p6_addr p) 8) 0); (split; [reflexivity|]).
    + tauto.
    + split; [discriminate|]. intros (_ & _ & [F|F]); [discriminate|contradiction].
  - split; [reflexivity|]. split; [discriminate|]. intros (N & _). apply V' in N. discriminate.
Qed.

Ltac ids := unfold JNLAG_POOL6, JNLAG_PLATEAUS, JNLAG_POOL6791V6, JNLAG_POOL6791V4, JNLAG_ENABLED, JNLAG_LOWEST_IPV6_MTU, JNLAG_DEBUG, JNLAG_RESET_TC, JNLAG_RESET_TOS, JNLAG_TOS,
  JNLAG_COMPUTE_CSUM_ZERO, JNLAG_HAIRPIN_MODE, JNLAG_RANDOMIZE_ERROR_ADDR, JNLAG_DROP_BY_ADDR, JNLAG_DROP_EXTERNAL_TCP, JNLAG_DROP_ICMP6_INFO, JNLAG_SRC_ICMP6_BETTER, JNLAG_F_ARGS, JNLAG_HANDLE_RST,
  JNLAG_TTL_TCP_EST, JNLAG_TTL_TCP_TRANS, JNLAG_TTL_UDP, JNLAG_TTL_ICMP, JNLAG_BIB_LOGGING, JNLAG_SESSION_LOGGING, JNLAG_MAX_STORED_PKTS, JNLAG_JOOLD_ENABLED, JNLAG_JOOLD_FLUSH_ASAP,
  JNLAG_JOOLD_FLUSH_DEADLINE, JNLAG_JOOLD_CAPACITY, JNLAG_JOOLD_MAX_PAYLOAD, JNLAG_JOOLD_MAX_SESSIONS_PER_PACKET in *.

Definition step_ok (force : bool) (xt id : Z) (v : gval) (g : globals) (r : rc * globals) : Prop :=
  match r with
  | (OK, g') => (acceptable force id v \/ (v = VPlateaus [] /\ id = JNLAG_PLATEAUS)) /\ gok xt g' /\ holds id v g' /\ (forall i, i <> id -> unchanged i g g')
  | (Err e, _) => e = EINVAL /\ ~ acceptable force id v /\ (v = VPlateaus [] -> id <> JNLAG_PLATEAUS)
  end.
Lemma set_num_step : forall force xt id v x g, xt = XT_SIIT \/ xt = XT_NAT64 -> gok xt g -> numeric id -> num_ok id x -> acceptable force id v ->
  (forall g', num g' id = x -> holds id v g') -> step_ok force xt id v g (OK, set_num g id x).
Proof.
  intros force xt id v x g Hx Hg Hn Hv Ha Hh. destruct (set_num_ok xt id x g Hx Hn Hv Hg) as (A & B & C). unfold step_ok. auto.
Qed.
Ltac setnum := match goal with Hg : gok _ _ |- _ => idtac end; apply set_num_step; [assumption|assumption|assumption|cbn; lia|cbn; ids; repeat split; let F := fresh in intros F; try discriminate F; lia|let G := fresh in let Q := fresh in intros G Q; cbn; exact Q].
Lemma step_u8 : forall force xt id x g, xt = XT_SIIT \/ xt = XT_NAT64 -> gok xt g -> right_kind xt id (VU8 x) -> is_u8 x ->
  step_ok force xt id (VU8 x) g (nl2raw force id (VU8 x) g).
Proof.
  intros force xt id x g Hx Hg [S K] Hu. unfold is_u8 in Hu.
  assert (Hnum : numeric id).
  { unfold numeric. ids. destruct K as [K|K]; [|cbn in K; lia]. unfold is_boolean_setting in K. repeat split; intros ->; discriminate. }
  assert (En : nl2raw force id (VU8 x) g =
    if id =? JNLAG_TOS then (OK, set_num g id x)
      else if id =? JNLAG_HAIRPIN_MODE then
        (if negb (x =? 0) && negb (x =? 1) && negb (x =? 2) then (Err EINVAL, g) else (OK, set_num g id x))
      else if id =? JNLAG_F_ARGS then (if 15 <? x then (Err EINVAL, g) else (OK, set_num g id x))
      else (OK, set_num g id (if x =? 0 then 0 else 1))).
  { unfold nl2raw. destruct Hnum as (A & B & C & D). apply Z.eqb_neq in A, B, C, D. rewrite A, B, C, D. reflexivity. }
  rewrite En. clear En. destruct K as [K|K].
  - assert (N : (id =? JNLAG_TOS) = false /\ (id =? JNLAG_HAIRPIN_MODE) = false /\ (id =? JNLAG_F_ARGS) = false).
    { ids. unfold is_boolean_setting in K. repeat split; apply Z.eqb_neq; intros ->; discriminate. }
    destruct N as (N1 & N2 & N3). rewrite N1, N2, N3. apply Z.eqb_neq in N2, N3. apply set_num_step; auto.
    + unfold num_ok. rewrite K. unfold boolean. destruct (x =? 0); auto.
    + cbn. split; intros E; contradiction.
    + intros g' E. cbn [holds]. rewrite K. exact E.
  - cbn [In] in K. ids. destruct K as [<-|[<-|[<-|[]]]]; cbn [Z.eqb Pos.eqb].
    + setnum.
    + destruct (negb (x =? 0) && negb (x =? 1) && negb (x =? 2)) eqn:E.
      * cbn. split; [reflexivity|]. split; [intros [A _]; specialize (A eq_refl); lia|discriminate].
      * setnum.
    + destruct (Z.ltb_spec 15 x).
      * cbn. split; [reflexivity|]. split; [intros [_ A]; specialize (A eq_refl); lia|discriminate].
      * setnum.
Qed.
Lemma step_u32 : forall force xt id x g, xt = XT_SIIT \/ xt = XT_NAT64 -> gok xt g -> right_kind xt id (VU32 x) -> is_u32 x ->
  step_ok force xt id (VU32 x) g (nl2raw force id (VU32 x) g).
Proof.
  intros force xt id x g Hx Hg [S K] Hu. unfold is_u32 in Hu.
  assert (Hnum : numeric id) by (unfold numeric; cbn in K; ids; lia).
  assert (En : nl2raw force id (VU32 x) g =
      if id =? JNLAG_LOWEST_IPV6_MTU then (if x <? 1280 then (Err EINVAL, g) else (OK, set_num g id x))
      else if id =? JNLAG_TTL_UDP then (if x <? 1000 * (2 * 60) then (Err EINVAL, g) else (OK, set_num g id x))
      else if id =? JNLAG_TTL_TCP_EST then (if x <? 1000 * (2 * 60 * 60) then (Err EINVAL, g) else (OK, set_num g id x))
      else if id =? JNLAG_TTL_TCP_TRANS then (if x <? 1000 * (4 * 60) then (Err EINVAL, g) else (OK, set_num g id x))
      else (OK, set_num g id x)).
  { unfold nl2raw. destruct Hnum as (A & B & C & D). apply Z.eqb_neq in A, B, C, D. rewrite A, B, C, D. reflexivity. }
  rewrite En. clear En. cbn [In] in K. ids.
  destruct K as [<-|[<-|[<-|[<-|K]]]].
  { cbn [Z.eqb Pos.eqb]; match goal with |- context [x <? ?k] => destruct (Z.ltb_spec x k) end; [cbn; split; [reflexivity|]; split; [intros (A1 & A2 & A3 & A4); ids; lia|discriminate]|setnum]. }
  { cbn [Z.eqb Pos.eqb]; match goal with |- context [x <? ?k] => destruct (Z.ltb_spec x k) end; [cbn; split; [reflexivity|]; split; [intros (A1 & A2 & A3 & A4); ids; lia|discriminate]|setnum]. }
  { cbn [Z.eqb Pos.eqb]; match goal with |- context [x <? ?k] => destruct (Z.ltb_spec x k) end; [cbn; split; [reflexivity|]; split; [intros (A1 & A2 & A3 & A4); ids; lia|discriminate]|setnum]. }
  { cbn [Z.eqb Pos.eqb]; match goal with |- context [x <? ?k] => destruct (Z.ltb_spec x k) end; [cbn; split; [reflexivity|]; split; [intros (A1 & A2 & A3 & A4); ids; lia|discriminate]|setnum]. }
  destruct K as [<-|[<-|[<-|[<-|[<-|[<-|[]]]]]]]; cbn [Z.eqb Pos.eqb]; (setnum).
Qed.

Lemma gok_pool6 : forall xt g p, xt = XT_SIIT \/ xt = XT_NAT64 -> gok xt g -> wt_prefix6 (pre6 p) -> (set6 p = true -> network6 (pre6 p) /\ rfc6052_len (p6_len (pre6 p))) ->
  gok xt (Globals (num g) p (plateaus g) (p6791v6 g) (p6791v4 g)).
Proof.
  intros xt g p Hx [D (W1 & W2 & W3 & W4)] W H. split; [|unfold wt_globals; cbn [pool6 plateaus p6791v6 p6791v4]; auto]. apply documented_iff in D; [|exact Hx]. apply documented_iff; [exact Hx|]. cbn [num pool6 plateaus p6791v6 p6791v4]. intuition.
Qed.
Lemma gok_v6 : forall xt g p, xt = XT_SIIT \/ xt = XT_NAT64 -> gok xt g -> wt_prefix6 (pre6 p) -> (set6 p = true -> network6 (pre6 p)) ->
  gok xt (Globals (num g) (pool6 g) (plateaus g) p (p6791v4 g)).
Proof.
  intros xt g p Hx [D (W1 & W2 & W3 & W4)] W H. split; [|unfold wt_globals; cbn [pool6 plateaus p6791v6 p6791v4]; auto]. apply documented_iff in D; [|exact Hx]. apply documented_iff; [exact Hx|]. cbn [num pool6 plateaus p6791v6 p6791v4]. intuition.
Qed.
Lemma gok_v4 : forall xt g p, xt = XT_SIIT \/ xt = XT_NAT64 -> gok xt g -> wt_prefix4 (pre4 p) -> (set4 p = true -> network4 (pre4 p)) ->
  gok xt (Globals (num g) (pool6 g) (plateaus g) (p6791v6 g) p).
Proof.
  intros xt g p Hx [D (W1 & W2 & W3 & W4)] W H. split; [|unfold wt_globals; cbn [pool6 plateaus p6791v6 p6791v4]; auto]. apply documented_iff in D; [|exact Hx]. apply documented_iff; [exact Hx|]. cbn [num pool6 plateaus p6791v6 p6791v4]. intuition.
Qed.
Lemma gok_plateaus : forall xt g p, xt = XT_SIIT \/ xt = XT_NAT64 -> gok xt g -> wt_plateaus p -> plateaus_ok p ->
  gok xt (Globals (num g) (pool6 g) p (p6791v6 g) (p6791v4 g)).
Proof.
  intros xt g p Hx [D (W1 & W2 & W3 & W4)] W H. split; [|unfold wt_globals; cbn [pool6 plateaus p6791v6 p6791v4]; auto]. apply documented_iff in D; [|exact Hx]. apply documented_iff; [exact Hx|]. cbn [num pool6 plateaus p6791v6 p6791v4]. intuition.
Qed.
Ltac frame := intros i Ni; unfold unchanged; ids; cbn [num pool6 plateaus p6791v6 p6791v4]; repeat split; intros; try reflexivity; exfalso; lia.

Lemma step_pool6 : forall force xt v g, xt = XT_SIIT \/ xt = XT_NAT64 -> gok xt g -> wt_val v -> (forall x, v <> VU8 x) -> (forall x, v <> VU32 x) ->
  step_ok force xt 2 v g (nl2raw force 2 v g).
Proof.
  intros force xt v g Hx Hg Hv N1 N2. unfold nl2raw. change (2 =? JNLAG_POOL6) with true. cbv iota. pose proof Hg as [D W].
  assert (HW : wt_prefix6 (pre6 (pool6 g))) by apply W.
  destruct v as [x|x|l|len addr|len addr]; cbn [jnla_get_prefix6_optional].
  - destruct (N1 x eq_refl).
  - destruct (N2 x eq_refl).
  - cbn. split; [reflexivity|]. split; [intros (A & _); discriminate A|discriminate].
  - destruct len as [len|]; [|cbn; split; [reflexivity|]; split; [intros []|discriminate]]. destruct addr as [a|].
    + cbn [wt_val] in Hv. unfold validate_pool6. cbn [set6 pre6]. assert (Wp : wt_prefix6 (P6 a len)) by (split; apply Hv).
      destruct (pool6_cases (P6 a len) force Wp) as [C1 C2]. destruct (pool6_validate (P6 a len) force) as [|e].
      * destruct C2 as [C2 _]. specialize (C2 eq_refl). cbn [p6_len p6_addr] in C2. cbn [step_ok acceptable holds]. split; [left; ids; tauto|]. split; [apply gok_pool6; auto; cbn [set6 pre6]; intros _; split; apply C2|]. split; [reflexivity|]. frame.
      * injection C1 as ->. cbn [step_ok acceptable]. split; [reflexivity|]. split; [|discriminate]. intros [A [B|B]]; [|discriminate B]. destruct C2 as [_ C2]. cbn [p6_len p6_addr] in C2. discriminate C2; tauto.
    + unfold validate_pool6. cbn [set6 step_ok acceptable holds]. split; [left; left; reflexivity|]. split; [apply gok_pool6; auto; discriminate|]. split; [reflexivity|]. frame.
  - cbn [step_ok]. split; [reflexivity|]. split; [|discriminate]. destruct len as [len|]; [destruct addr|]; cbn; [intros [A _]; discriminate A|discriminate|auto].
Qed.
Lemma step_v6 : forall force xt v g, xt = XT_SIIT \/ xt = XT_NAT64 -> gok xt g -> wt_val v -> (forall x, v <> VU8 x) -> (forall x, v <> VU32 x) ->
  step_ok force xt 12 v g (nl2raw force 12 v g).
Proof.
  intros force xt v g Hx Hg Hv N1 N2. unfold nl2raw. change (12 =? JNLAG_POOL6) with false. change (12 =? JNLAG_PLATEAUS) with false. change (12 =? JNLAG_POOL6791V6) with true. cbv iota. pose proof Hg as [D W].
  assert (HW : wt_prefix6 (pre6 (p6791v6 g))) by apply W.
  destruct v as [x|x|l|len addr|len addr]; cbn [jnla_get_prefix6_optional].
  - destruct (N1 x eq_refl).
  - destruct (N2 x eq_refl).
  - cbn. split; [reflexivity|]. split; [intros (A & _); discriminate A|discriminate].
  - destruct len as [len|]; [|cbn; split; [reflexivity|]; split; [intros []|discriminate]]. destruct addr as [a|].
    + cbn [wt_val] in Hv. cbn [set6 pre6]. assert (Wp : wt_prefix6 (P6 a len)) by (split; apply Hv).
      assert (V : prefix6_validate (P6 a len) = OK <-> network6 (P6 a len)) by (rewrite (prefix6_validate_spec _ Wp); unfold network6; destruct Wp as [_ Wp]; unfold is_u8 in Wp; intuition lia).
      destruct (validate_cases (P6 a len)) as [C|C]; rewrite C in *.
      * cbn [step_ok acceptable holds]. split; [left; ids; tauto|]. split; [apply gok_v6; auto; intros _; cbn [pre6]; tauto|]. split; [reflexivity|]. frame.
      * cbn [step_ok acceptable]. split; [reflexivity|]. split; [|discriminate]. intros [A _]. apply V in A. discriminate.
    + cbn [set6 step_ok acceptable holds]. split; [left; right; reflexivity|]. split; [apply gok_v6; auto; discriminate|]. split; [reflexivity|]. frame.
  - cbn [step_ok]. split; [reflexivity|]. split; [|discriminate]. destruct len as [len|]; [destruct addr|]; cbn; [intros [A _]; discriminate A|discriminate|auto].
Qed.
Lemma step_v4 : forall force xt v g, xt = XT_SIIT \/ xt = XT_NAT64 -> gok xt g -> wt_val v -> (forall x, v <> VU8 x) -> (forall x, v <> VU32 x) ->
  step_ok force xt 13 v g (nl2raw force 13 v g).
Proof.
  intros force xt v g Hx Hg Hv N1 N2. unfold nl2raw. change (13 =? JNLAG_POOL6) with false. change (13 =? JNLAG_PLATEAUS) with false. change (13 =? JNLAG_POOL6791V6) with false. change (13 =? JNLAG_POOL6791V4) with true. cbv iota. pose proof Hg as [D W].
  assert (HW : wt_prefix4 (pre4 (p6791v4 g))) by apply W.
  destruct v as [x|x|l|len addr|len addr]; cbn [jnla_get_prefix4_optional].
  - destruct (N1 x eq_refl).
  - destruct (N2 x eq_refl).
  - cbn. split; [reflexivity|]. split; [intros (A & _); discriminate A|discriminate].
  - cbn [step_ok]. split; [reflexivity|]. split; [|discriminate]. destruct len as [len|]; [destruct addr|]; cbn; [ids; intros [_ [[A _]|A]]; discriminate A|ids; lia|auto].
  - destruct len as [len|]; [|cbn; split; [reflexivity|]; split; [intros []|discriminate]]. destruct addr as [a|].
    + cbn [wt_val] in Hv. unfold validate_prefix6791v4. cbn [set4 pre4 negb]. assert (Wp : wt_prefix4 (P4 a len)) by (split; apply Hv).
      pose proof (admissible_spec (P4 a len) force Wp) as V. unfold admissible in V. cbn [p4_len p4_addr] in V.
      assert (Hl : 0 <= len) by (destruct Wp as [_ Wp]; unfold is_u8 in Wp; cbn in Wp; lia).
      destruct (validate4_cases (P4 a len)) as [C|C]; rewrite C in *.
      * assert (C' : prefix4_validate_scope (P4 a len) force = OK \/ prefix4_validate_scope (P4 a len) force = Err EINVAL) by (unfold prefix4_validate_scope; destruct (negb force && _); auto).
        destruct C' as [C'|C']; rewrite C' in *.
        -- destruct V as [V _]. specialize (V (conj eq_refl eq_refl)). destruct V as (V1 & V2 & V3). cbn [step_ok acceptable holds]. split; [left; split; [reflexivity|]; split; [unfold network4; cbn [p4_len p4_addr]; lia|exact V3]|].
           split; [apply gok_v4; auto; intros _; cbn [pre4]; unfold network4; cbn [p4_len p4_addr]; lia|]. split; [reflexivity|]. frame.
        -- cbn [step_ok acceptable]. split; [reflexivity|]. split; [|discriminate]. intros (_ & [A B] & E). cbn [p4_len p4_addr] in A, B. destruct V as [_ V]. destruct V as [_ V]; [tauto|discriminate V].
      * cbn [step_ok acceptable]. split; [reflexivity|]. split; [|discriminate]. intros (_ & [A B] & E). cbn [p4_len p4_addr] in A, B. destruct V as [_ V]. destruct V as [V _]; [tauto|discriminate V].
    + unfold validate_prefix6791v4. cbn [set4 step_ok acceptable holds negb]. split; [left; reflexivity|]. split; [apply gok_v4; auto; discriminate|]. split; [reflexivity|]. frame.
Qed.
Lemma stored_hd : forall p, plateaus_ok p -> wt_plateaus p -> nth 0 (values p) 0 <> 0 /\ 1 <= count p.
Proof.
  intros p (A & B & C & D) (L & U & R). unfold stored in *. destruct (values p) as [|v vs]; [discriminate L|]. cbn [nth].
  destruct (Z.to_nat (count p)) as [|n] eqn:E; [destruct (A eq_refl)|]. split; [|lia]. specialize (C v (or_introl eq_refl)). lia.
Qed.
Lemma step_plateaus : forall force xt v g, xt = XT_SIIT \/ xt = XT_NAT64 -> gok xt g -> wt_val v -> (forall x, v <> VU8 x) -> (forall x, v <> VU32 x) ->
  step_ok force xt 8 v g (nl2raw force 8 v g).
Proof.
  intros force xt v g Hx Hg Hv N1 N2. unfold nl2raw. change (8 =? JNLAG_POOL6) with false. change (8 =? JNLAG_PLATEAUS) with true. cbv iota.
  assert (W : wt_plateaus (plateaus g)) by apply Hg. assert (P : plateaus_ok (plateaus g)) by (destruct Hg as [D _]; apply documented_iff in D; [apply D|exact Hx]).
  destruct v as [x|x|l|len addr|len addr].
  - destruct (N1 x eq_refl).
  - destruct (N2 x eq_refl).
  - destruct l as [|x l].
    + rewrite plateaus_empty. destruct (stored_hd _ P W) as [H0 H1]. apply Z.eqb_neq in H0. rewrite H0. apply Z.eqb_neq in H0. cbn [step_ok]. split; [right; split; reflexivity|].
      destruct W as (L & U & R). destruct (values (plateaus g)) as [|v vs] eqn:Ev; [discriminate L|]. cbn [nth] in H0.
      assert (Hr : is_u16 v) by (inversion U; assumption). unfold is_u16 in Hr.
      split; [apply gok_plateaus; auto|].
      * unfold wt_plateaus. cbn [values count]. split; [exact L|]. split; [exact U|lia].
      * unfold plateaus_ok, stored. cbn [values count]. change (Z.to_nat 1) with 1%nat. cbn [firstn]. split; [discriminate|]. split; [constructor; [intros y []|constructor]|]. split; [intros y [<-|[]]; lia|cbn; lia].
      * split; [intros X; destruct (X eq_refl)|]. frame.
    + cbn [wt_val] in Hv. pose proof (plateaus_cases (x :: l) (plateaus g)) as C. destruct W as (L & U & R). specialize (C L U Hv ltac:(discriminate)). set (q := x :: l) in *.
      destruct (Z.ltb_spec 64 (Z.of_nat (length q))).
      * destruct C as (p' & ->). cbn [step_ok acceptable]. split; [reflexivity|]. split; [intros (_ & A & _); lia|discriminate].
      * destruct (forallb (Z.eqb 0) q) eqn:F.
        -- destruct C as (p' & ->). cbn [step_ok acceptable]. split; [reflexivity|]. split; [|discriminate]. intros (_ & _ & y & Hy & Ny). rewrite forallb_forall in F. apply F in Hy. lia.
        -- destruct C as (p' & E & Nrm & W' & C1). rewrite E. cbn [step_ok acceptable holds]. split.
           { left. split; [reflexivity|]. split; [lia|]. apply not_true_iff_false in F. rewrite forallb_forall in F.
             assert (X : forall m, ~ (forall y, In y m -> (0 =? y) = true) -> exists y, In y m /\ y <> 0).
             { clear. induction m as [|z m IH]; intros H; [destruct H; intros y []|]. destruct (Z.eq_dec z 0) as [->|Nz]; [|exists z; split; [left; reflexivity|exact Nz]].
               destruct IH as (y & Hy & Ny); [intros H'; apply H; intros y [<-|Hy]; [reflexivity|apply H'; exact Hy]|]. exists y. split; [right; exact Hy|exact Ny]. }
             apply X. exact F. }
           split; [apply gok_plateaus; auto|].
           { destruct Nrm as [N3 N4]. destruct W' as (L' & U' & R'). unfold plateaus_ok.
             assert (Ln : length (stored p') = Z.to_nat (count p')) by (unfold stored; rewrite firstn_length; lia).
             split; [intros X; rewrite X in Ln; cbn in Ln; lia|]. split; [exact N3|]. split; [|lia]. intros y Hy. pose proof Hy as Hy'. apply N4 in Hy'. unfold stored in Hy.
             assert (is_u16 y) by (pose proof (Forall_firstn _ (Z.to_nat (count p')) _ U') as FF; rewrite Forall_forall in FF; apply FF; exact Hy). unfold is_u16 in H0. lia. }
           split; [intros _; exact Nrm|]. frame.
  - cbn [step_ok]. split; [reflexivity|]. split; [|discriminate]. destruct len as [len|]; [destruct addr|]; cbn; ids; [intros (_ & [[A _]|A]); discriminate A|lia|auto].
  - cbn [step_ok]. split; [reflexivity|]. split; [|discriminate]. destruct len as [len|]; [destruct addr|]; cbn; ids; [intros (A & _); discriminate A|lia|auto].
Qed.
Lemma step_spec : forall force xt id v g, xt = XT_SIIT \/ xt = XT_NAT64 -> gok xt g -> right_kind xt id v -> wt_val v -> step_ok force xt id v g (nl2raw force id v g).
Proof.
  intros force xt id v g Hx Hg Hk Hv. destruct v as [x|x|l|len addr|len addr].
  - apply step_u8; auto.
  - apply step_u32; auto.
  - destruct Hk as [_ K]. cbn [In] in K. ids. destruct K as [<-|[<-|[<-|[<-|[]]]]]; [apply step_pool6|apply step_plateaus|apply step_v6|apply step_v4]; auto; discriminate.
  - destruct Hk as [_ K]. cbn [In] in K. ids. destruct K as [<-|[<-|[<-|[<-|[]]]]]; [apply step_pool6|apply step_plateaus|apply step_v6|apply step_v4]; auto; discriminate.
  - destruct Hk as [_ K]. cbn [In] in K. ids. destruct K as [<-|[<-|[<-|[<-|[]]]]]; [apply step_pool6|apply step_plateaus|apply step_v6|apply step_v4]; auto; discriminate.
Qed.

(** ** Whole updates *)

Lemma asks_find : forall msg id v, option_map snd (find (fun a : Z * gval => fst a =? id) (rev msg)) = Some v <-> asks msg id v.
Proof.
  intros msg id v. induction msg as [|(i, w) msg IH] using rev_ind.
  - cbn. split; [discriminate|]. intros (b & a & E & _). destruct b; discriminate.
  - rewrite rev_unit. cbn [find fst snd]. destruct (Z.eqb_spec i id) as [->|N].
    + cbn [option_map snd]. split.
      * intros E. injection E as ->. exists msg, []. split; [reflexivity|]. intros u [].
      * intros (b & a & E & H). destruct a as [|x a] using rev_ind; [apply app_inj_tail in E; destruct E as [_ E]; congruence|].
        clear IHa. rewrite app_comm_cons, app_assoc in E. apply app_inj_tail in E. destruct E as [_ <-]. exfalso. apply (H w). apply in_or_app. right. left. reflexivity.
    + rewrite IH. split; intros (b & a & E & H).
      * exists b, (a ++ [(i, w)]). split; [rewrite E, <- app_assoc; reflexivity|]. intros u Hu. apply in_app_iff in Hu. destruct Hu as [Hu|[Hu|[]]]; [apply (H u Hu)|congruence].
      * destruct a as [|x a] using rev_ind; [apply app_inj_tail in E; destruct E as [_ E]; congruence|]. clear IHa.
        rewrite app_comm_cons, app_assoc in E. apply app_inj_tail in E. destruct E as [-> _]. exists b, a. split; [reflexivity|]. intros u Hu. apply (H u). apply in_or_app. left. exact Hu.
Qed.
Lemma asks_in : forall msg id v, asks msg id v -> In (id, v) msg.
Proof. intros msg id v (b & a & -> & _). apply in_or_app. right. left. reflexivity. Qed.

Lemma holds_unchanged : forall force xt id v g g', right_kind xt id v -> acceptable force id v \/ (v = VPlateaus [] /\ id = JNLAG_PLATEAUS) -> holds id v g -> unchanged id g g' -> holds id v g'.
Proof.
  intros force xt id v g g' [_ K] A H (U1 & U2 & U3 & U4 & U5). destruct v as [x|x|l|len addr|len addr]; cbn [holds] in *.
  - rewrite <- H. apply U1; destruct K as [K|K]; try (intros ->; discriminate K); cbn in K; ids; lia.
  - rewrite <- H. cbn in K. ids. apply U1; lia.
  - intros N. destruct A as [(A & _)|[A A']]; [|congruence]. rewrite (U3 A). auto.
  - destruct A as [A|[A _]]; [|discriminate]. assert (D : id = JNLAG_POOL6 \/ id = JNLAG_POOL6791V6) by (cbn [acceptable] in A; destruct len; [destruct addr|]; tauto).
    destruct D as [->| ->]; ids; cbn [Z.eqb Pos.eqb] in *; rewrite ?(U2 eq_refl), ?(U4 eq_refl); exact H.
  - destruct A as [A|[A _]]; [|discriminate]. assert (D : id = JNLAG_POOL6791V4) by (cbn [acceptable] in A; destruct len; [destruct addr|]; tauto).
    rewrite (U5 D). exact H.
Qed.

Lemma update_each_spec : forall force xt attrs, xt = XT_SIIT \/ xt = XT_NAT64 -> (forall id v, attrs id = Some v -> right_kind xt id v /\ wt_val v) ->
  forall metas g, NoDup (map fst metas) -> (forall id m, In (id, m) metas -> bit_and m xt = true <-> setting_of xt id) -> gok xt g ->
  match update_each force xt attrs metas g with
  | (OK, g') => gok xt g' /\
      (forall id v, In id (map fst metas) -> attrs id = Some v -> (acceptable force id v \/ (v = VPlateaus [] /\ id = JNLAG_PLATEAUS)) /\ holds id v g') /\
      (forall id, ~ In id (map fst metas) \/ attrs id = None -> unchanged id g g')
  | (Err e, _) => e = EINVAL /\ exists id v, attrs id = Some v /\ ~ acceptable force id v /\ (v = VPlateaus [] -> id <> JNLAG_PLATEAUS)
  end.
Proof.
  intros force xt attrs Hx Ha metas. induction metas as [|(id, m) metas IH]; intros g Nd Hm Hg.
  - cbn. split; [exact Hg|]. split; [intros id v []|]. intros id _. apply unchanged_refl.
  - cbn [map fst] in Nd. inversion Nd as [|? ? Nin Nd']; subst. assert (Hm' : forall id' m', In (id', m') metas -> bit_and m' xt = true <-> setting_of xt id') by (intros; apply Hm; right; assumption).
    assert (Hid : bit_and m xt = true <-> setting_of xt id) by (apply Hm; left; reflexivity). cbn [update_each].
    assert (Skip : attrs id = None -> match update_each force xt attrs metas g with
      | (OK, g') => gok xt g' /\ (forall i v, In i (map fst ((id, m) :: metas)) -> attrs i = Some v -> (acceptable force i v \/ (v = VPlateaus [] /\ i = JNLAG_PLATEAUS)) /\ holds i v g') /\
          (forall i, ~ In i (map fst ((id, m) :: metas)) \/ attrs i = None -> unchanged i g g')
      | (Err e, _) => e = EINVAL /\ exists i v, attrs i = Some v /\ ~ acceptable force i v /\ (v = VPlateaus [] -> i <> JNLAG_PLATEAUS) end).
    { intros En. specialize (IH g Nd' Hm' Hg). destruct (update_each force xt attrs metas g) as [[|e] g']; [|exact IH]. destruct IH as (I1 & I2 & I3). split; [exact I1|]. split.
      - intros i v [<-|Hi] Ei; [cbn [fst] in Ei; congruence|apply I2; assumption].
      - intros i [Hi|Hi]; apply I3; [left; intros X; apply Hi; right; exact X|right; exact Hi]. }
    destruct (bit_and m xt) eqn:Eb; cbn [negb].
    + destruct (attrs id) as [v|] eqn:Ev; [|apply Skip; reflexivity]. destruct (Ha id v Ev) as [Hk Hw]. pose proof (step_spec force xt id v g Hx Hg Hk Hw) as St. unfold step_ok in St.
      destruct (nl2raw force id v g) as [[|e] g1]; [|destruct St as (-> & St1 & St2); split; [reflexivity|]; exists id, v; auto]. destruct St as (S1 & S2 & S3 & S4).
      specialize (IH g1 Nd' Hm' S2). destruct (update_each force xt attrs metas g1) as [[|e] g']; [|exact IH]. destruct IH as (I1 & I2 & I3). split; [exact I1|]. split.
      * intros i w [<-|Hi] Ei.
        -- cbn [fst] in *. assert (w = v) by congruence. subst w. split; [exact S1|]. eapply holds_unchanged; [exact Hk|exact S1|exact S3|]. apply I3. left. exact Nin.
        -- apply I2; assumption.
      * intros i Hi. assert (Ni : i <> id) by (intros ->; destruct Hi as [Hi|Hi]; [apply Hi; left; reflexivity|congruence]).
        eapply unchanged_trans; [apply S4; exact Ni|]. apply I3. destruct Hi as [Hi|Hi]; [left; intros X; apply Hi; right; exact X|right; exact Hi].
    + apply Skip. destruct (attrs id) as [v|] eqn:Ev; [|reflexivity]. destruct (Ha id v Ev) as [[Hs _] _]. apply Hid in Hs. discriminate.
Qed.
Lemma metadata_nodup : NoDup (map fst metadata).
Proof. cbn. repeat (constructor; [cbn [In]; lia|]). constructor. Qed.
Lemma metadata_types : forall xt id m, xt = XT_SIIT \/ xt = XT_NAT64 -> In (id, m) metadata -> bit_and m xt = true <-> setting_of xt id.
Proof.
  intros xt id m Hx H. unfold metadata in H. cbn [map app In] in H. unfold setting_of.
  destruct Hx as [->| ->]; repeat (destruct H as [H|H]; [injection H as <- <-; cbn; unfold XT_SIIT, XT_NAT64; split; [intros E; try discriminate E; lia|intros E; try reflexivity; exfalso; lia]|]); destruct H.
Qed.
Lemma metadata_all : forall xt id, setting_of xt id -> In id (map fst metadata).
Proof.
  intros xt id H. cbn [map metadata app fst]. assert (1 <= id <= 32) by (unfold setting_of in H; lia). clear H.
  assert (D : In id (map Z.of_nat (seq 1 32))) by (apply in_map_iff; exists (Z.to_nat id); split; [lia|apply in_seq; lia]). exact D.
Qed.
(** What an update does. *)
Lemma update_spec : forall xt force msg g, xt = XT_SIIT \/ xt = XT_NAT64 -> gok xt g -> wt_msg msg ->
  match global_update g xt force msg with
  | (OK, g') => gok xt g' /\ (forall id v, In (id, v) msg -> right_kind xt id v) /\
      (forall id v, asks msg id v -> (acceptable force id v \/ (v = VPlateaus [] /\ id = JNLAG_PLATEAUS)) /\ holds id v g') /\
      (forall id, (forall v, ~ In (id, v) msg) -> unchanged id g g')
  | (Err e, _) => e = EINVAL /\ ((exists id v, In (id, v) msg /\ ~ right_kind xt id v) \/
      (exists id v, asks msg id v /\ ~ acceptable force id v /\ (v = VPlateaus [] -> id <> JNLAG_PLATEAUS)))
  end.
Proof.
  intros xt force msg g Hx Hg Hw. unfold global_update.
  assert (E : (xt =? XT_SIIT) || (xt =? XT_NAT64) = true) by (destruct Hx as [->| ->]; reflexivity). rewrite E. clear E. unfold jnla_parse_nested.
  destruct (forallb _ msg) eqn:F.
  - rewrite forallb_forall in F. set (attrs := fun id => option_map snd (find (fun a : Z * gval => fst a =? id) (rev msg))).
    assert (Ha : forall id v, attrs id = Some v -> right_kind xt id v /\ wt_val v).
    { intros id v H. apply asks_find in H. apply asks_in in H. split; [apply (policy_kind xt id v Hx); apply (F (id, v) H)|]. unfold wt_msg in Hw. rewrite Forall_forall in Hw. apply (Hw (id, v) H). }
    pose proof (update_each_spec force xt attrs Hx Ha metadata g metadata_nodup (fun id m H => metadata_types xt id m Hx H) Hg) as S.
    destruct (update_each force xt attrs metadata g) as [[|e] g'].
    + destruct S as (S1 & S2 & S3). split; [exact S1|]. split; [intros id v H; apply (policy_kind xt id v Hx); apply (F (id, v) H)|]. split.
      * intros id v H. apply S2; [|apply asks_find; exact H]. apply asks_in in H. apply metadata_all with (xt := xt). apply F in H. apply (policy_kind xt id v Hx) in H. apply H.
      * intros id H. apply S3. right. destruct (attrs id) as [v|] eqn:Ev; [|reflexivity]. apply asks_find in Ev. apply asks_in in Ev. destruct (H v Ev).
    + destruct S as (S1 & id & v & S2 & S3 & S4). split; [exact S1|]. right. exists id, v. split; [apply asks_find; exact S2|auto].
  - split; [reflexivity|]. left. assert (X : exists a, In a msg /\ kind_ok (policy xt (fst a)) (snd a) = false).
    { clear -F. induction msg as [|a msg IH]; [discriminate|]. cbn [forallb] in F. apply andb_false_iff in F. destruct F as [F|F]; [exists a; split; [left; reflexivity|exact F]|].
      destruct (IH F) as (b & B1 & B2). exists b. split; [right; exact B1|exact B2]. }
    destruct X as ((id, v) & X1 & X2). exists id, v. split; [exact X1|]. intros K. apply (policy_kind xt id v Hx) in K. cbn in X2. congruence.
Qed.
Lemma init_ok : forall xt p g0 g, xt = XT_SIIT \/ xt = XT_NAT64 -> wt_globals g0 -> match p with Some q => wt_prefix6 q | None => True end ->
  globals_init g0 xt p = (OK, g) -> gok xt g /\ set6 (pool6 g) = (if p then true else false) /\ match p with Some q => pre6 (pool6 g) = q | None => True end.
Proof.
  intros xt p g0 g Hx W Wp. unfold globals_init. destruct (validate_pool6 _ true) eqn:V; [|discriminate].
  assert (P : match p with Some q => network6 q /\ rfc6052_len (p6_len q) | None => True end).
  { destruct p as [q|]; [|exact Logic.I]. unfold validate_pool6 in V. cbn [set6 pre6] in V. destruct (pool6_cases q true Wp) as [_ C]. apply C in V. tauto. }
  destruct W as ((W1 & W2 & W3) & W4 & W5 & W6).
  assert (Pl : plateaus_ok (Plateaus ([65535; 32000; 17914; 8166; 4352; 2002; 1492; 1006; 508; 296; 68] ++ skipn 11 (values (plateaus g0))) 11)).
  { unfold plateaus_ok, stored. cbn [count values]. change (Z.to_nat 11) with 11%nat. cbn [app firstn]. split; [discriminate|]. split; [repeat (constructor; [cbn [In]; lia|]); constructor|]. cbn [In length]. split; [intros; lia|lia]. }
  assert (Wl : wt_plateaus (Plateaus ([65535; 32000; 17914; 8166; 4352; 2002; 1492; 1006; 508; 296; 68] ++ skipn 11 (values (plateaus g0))) 11)).
  { unfold wt_plateaus. cbn [count values]. rewrite app_length, skipn_length. cbn [length]. split; [lia|]. split; [|lia]. apply Forall_app. split; [|apply Forall_skipn; exact W2]. repeat (constructor; [unfold is_u16; lia|]). constructor. }
  destruct Hx as [->| ->]; intros E; cbn [Z.eqb Pos.eqb XT_SIIT XT_NAT64] in E; injection E as <-.
  - split; [split|].
    + apply documented_iff; [left; reflexivity|]. cbn [num pool6 plateaus p6791v6 p6791v4]. split.
      * intros id Hs (N1 & N2 & N3 & N4). unfold setting_of, XT_SIIT, XT_NAT64 in Hs. ids.
        assert (D : id = 1 \/ id = 3 \/ id = 4 \/ id = 5 \/ id = 6 \/ id = 7 \/ id = 9 \/ id = 10 \/ id = 11) by lia.
        repeat (destruct D as [->|D]); [..|subst id]; cbn; unfold boolean; lia.
      * split; [destruct p; [intros _; exact P|discriminate]|]. split; [exact Pl|]. intros _. split; discriminate.
    + unfold wt_globals. cbn [num pool6 plateaus p6791v6 p6791v4 pre6 pre4]. split; [exact Wl|]. split; [destruct p; assumption|]. split; assumption.
    + cbn [pool6]. destruct p; split; reflexivity || exact Logic.I.
  - split; [split|].
    + apply documented_iff; [right; reflexivity|]. cbn [num pool6 plateaus p6791v6 p6791v4]. split.
      * intros id Hs (N1 & N2 & N3 & N4). unfold setting_of, XT_SIIT, XT_NAT64 in Hs. ids.
        assert (D : id = 1 \/ id = 3 \/ id = 4 \/ id = 5 \/ id = 6 \/ id = 7 \/ id = 14 \/ id = 15 \/ id = 16 \/ id = 17 \/ id = 18 \/ id = 19 \/ id = 20 \/ id = 21 \/ id = 22 \/ id = 23 \/ id = 24 \/ id = 25 \/ id = 26 \/ id = 27 \/ id = 28 \/ id = 29 \/ id = 30 \/ id = 31 \/ id = 32) by lia.
        repeat (destruct D as [->|D]); [..|subst id]; cbn; unfold boolean; lia.
      * split; [destruct p; [intros _; exact P|discriminate]|]. split; [exact Pl|]. intros E. discriminate E.
    + unfold wt_globals. cbn [num pool6 plateaus p6791v6 p6791v4 pre6 pre4]. split; [exact Wl|]. split; [destruct p; assumption|]. split; assumption.
    + cbn [pool6]. destruct p; split; reflexivity || exact Logic.I.
Qed.

(** ** Listing *)

Lemma foreach_all : forall xt metas cap, globals_foreach xt metas 0 cap =
  let l := map fst (filter (fun m => bit_and (snd m) xt) metas) in (firstn cap l, (cap <? length l)%nat).
Proof.
  intros xt metas. induction metas as [|(id, m) metas IH]; intros cap; cbn [globals_foreach filter map snd]; [destruct cap; reflexivity|].
  destruct (bit_and m xt); cbn [negb]; [|apply IH]. cbn [Z.eqb negb map fst length]. destruct cap as [|cap]; [reflexivity|]. rewrite IH. reflexivity.
Qed.
(** Past an offset that is one of the listed numbers. *)
Lemma foreach_past : forall xt a k m b cap, k <> 0 -> ~ In k (map fst a) -> bit_and m xt = true ->
  globals_foreach xt (a ++ (k, m) :: b) k cap = globals_foreach xt b 0 cap.
Proof.
  intros xt a k m b cap Hk Hn E. induction a as [|(i, n) a IH].
  - cbn [app globals_foreach]. rewrite E. cbn [negb]. replace (k =? 0) with false by lia. cbn [negb]. rewrite Z.eqb_refl. reflexivity.
  - cbn [app globals_foreach]. cbn [map fst] in Hn. destruct (bit_and n xt); cbn [negb]; [|apply IH; intros X; apply Hn; right; exact X].
    replace (k =? 0) with false by lia. cbn [negb]. destruct (Z.eqb_spec i k) as [->|N]; [destruct Hn; left; reflexivity|]. apply IH. intros X. apply Hn. right. exact X.
Qed.
Definition settings (xt : Z) : list Z := map fst (filter (fun m => bit_and (snd m) xt) metadata).
Lemma settings_siit : settings XT_SIIT = [1; 2; 3; 4; 5; 6; 7; 8; 9; 10; 11; 12; 13].
Proof. reflexivity. Qed.
Lemma settings_nat64 : settings XT_NAT64 = [1; 2; 3; 4; 5; 6; 7; 8; 14; 15; 16; 17; 18; 19; 20; 21; 22; 23; 24; 25; 26; 27; 28; 29; 30; 31; 32].
Proof. reflexivity. Qed.
Lemma foreach_offset : forall xt k cap, xt = XT_SIIT \/ xt = XT_NAT64 -> In k (settings xt) ->
  globals_foreach xt metadata k cap = let l := filter (fun i => k <? i) (settings xt) in (firstn cap l, (cap <? length l)%nat).
Proof.
  intros xt k cap Hx Hk. unfold settings in Hk. apply in_map_iff in Hk. destruct Hk as ((k', m) & E & Hk). cbn in E. subst k'. apply filter_In in Hk. destruct Hk as [Hk Hb]. cbn [snd] in Hb.
  assert (X : forall pre post, metadata = pre ++ (k, m) :: post -> k <> 0 -> ~ In k (map fst pre) -> map fst (filter (fun m => bit_and (snd m) xt) post) = filter (fun i => k <? i) (settings xt) ->
    globals_foreach xt metadata k cap = let l := filter (fun i => k <? i) (settings xt) in (firstn cap l, (cap <? length l)%nat)).
  { intros pre post E N1 N2 N3. rewrite E at 1. rewrite foreach_past by assumption. rewrite foreach_all. rewrite N3. reflexivity. }
  apply in_split in Hk. destruct Hk as (pre & post & E). apply (X pre post E).
  - assert (I : In (k, m) metadata) by (rewrite E; apply in_or_app; right; left; reflexivity). unfold metadata in I. cbn [map app In] in I. intros ->. repeat (destruct I as [I|I]; [discriminate I|]). destruct I.
  - pose proof metadata_nodup as Nd. rewrite E, map_app in Nd. cbn [map fst] in Nd. apply NoDup_remove_2 in Nd. intros I. apply Nd. apply in_or_app. left. exact I.
  - assert (Sr : forall i m', In (i, m') pre -> i < k). 
    { intros i m' I. assert (A : StronglySorted Z.lt (map fst metadata)) by (cbn; repeat (constructor; [|repeat (constructor; [lia|]); constructor]); constructor).
      rewrite E, map_app in A. clear -A I. induction pre as [|(j, n) pre IH]; [destruct I|]. cbn [map fst app] in A. inversion A as [|? ? A1 A2]; subst. destruct I as [I|I].
      - injection I as -> ->. rewrite Forall_forall in A2. specialize (A2 k ltac:(apply in_or_app; right; left; reflexivity)). lia.
      - apply IH; assumption. }
    assert (Sp : forall i m', In (i, m') post -> k < i).
    { intros i m' I. assert (A : StronglySorted Z.lt (map fst metadata)) by (cbn; repeat (constructor; [|repeat (constructor; [lia|]); constructor]); constructor).
      rewrite E, map_app in A. clear -A I. induction pre as [|(j, n) pre IH]; cbn [map fst app] in A; inversion A as [|? ? A1 A2]; subst; [|apply IH; exact A1].
      rewrite Forall_forall in A2. apply A2. apply in_map_iff. exists (i, m'). split; [reflexivity|exact I]. }
    unfold settings. rewrite E. rewrite filter_app, map_app, filter_app. cbn [filter snd]. rewrite Hb. cbn [map fst filter]. rewrite Z.ltb_irrefl.
    replace (filter (fun i => k <? i) (map fst (filter (fun m0 => bit_and (snd m0) xt) pre))) with (@nil Z).
    + cbn [app]. clear -Sp. induction post as [|(i, n) post IH]; [reflexivity|]. cbn [filter snd]. destruct (bit_and n xt); [|apply IH; intros; eapply Sp; right; eassumption].
      cbn [map fst filter]. specialize (Sp i n (or_introl eq_refl)) as L. replace (k <? i) with true by lia. f_equal. apply IH. intros. eapply Sp. right. eassumption.
    + clear -Sr. induction pre as [|(i, n) pre IH]; [reflexivity|]. cbn [filter snd]. destruct (bit_and n xt); [|apply IH; intros; eapply Sr; right; eassumption].
      cbn [map fst filter]. specialize (Sr i n (or_introl eq_refl)) as L. replace (k <? i) with false by lia. apply IH. intros. eapply Sr. right. eassumption.
Qed.
Lemma settings_sorted : forall xt, xt = XT_SIIT \/ xt = XT_NAT64 -> KeyPaging.ascending (fun i : Z => i) Z.lt (settings xt).
Proof.
  intros xt [->| ->]; [rewrite settings_siit|rewrite settings_nat64]; unfold KeyPaging.ascending; repeat (constructor; [|repeat (constructor; [lia|]); constructor]); constructor.
Qed.
Lemma requests_eq : forall xt caps off, xt = XT_SIIT \/ xt = XT_NAT64 -> match off with None => True | Some k => In k (settings xt) end ->
  KeyPaging.request_all (fun i : Z => i) (map (fun c off => globals_foreach xt metadata (match off with None => 0 | Some k => k end) c) caps) off =
  KeyPaging.request_all (fun i : Z => i) (map (fun c off => KeyPaging.key_page (fun i : Z => i) Z.ltb (settings xt) off c) caps) off.
Proof.
  intros xt caps. induction caps as [|c caps IH]; intros off Hx Ho; [reflexivity|]. cbn [map KeyPaging.request_all].
  assert (E : globals_foreach xt metadata (match off with None => 0 | Some k => k end) c = KeyPaging.key_page (fun i : Z => i) Z.ltb (settings xt) off c).
  { unfold KeyPaging.key_page, KeyPaging.beyond. destruct off as [k|]; [apply foreach_offset; assumption|]. rewrite foreach_all. fold (settings xt). cbv zeta.
    replace (filter (fun _ : Z => true) (settings xt)) with (settings xt); [reflexivity|]. generalize (settings xt). induction l as [|x l IHl]; [reflexivity|]. cbn [filter]. f_equal. exact IHl. }
  rewrite E. destruct (KeyPaging.key_page (fun i : Z => i) Z.ltb (settings xt) off c) as [pg more] eqn:Epg. unfold KeyPaging.key_page in Epg. injection Epg as Ep Em. destruct pg as [|x p]; [destruct more; reflexivity|]. destruct more; [|reflexivity]. f_equal. apply IH; [exact Hx|].
  destruct (KeyPaging.last_snoc p x) as (q & Eq). assert (I : In (last p x) (firstn c (filter (KeyPaging.beyond (fun i : Z => i) Z.ltb off) (settings xt)))) by (rewrite Ep, Eq; apply in_or_app; right; left; reflexivity).
  assert (I' : In (last p x) (filter (KeyPaging.beyond (fun i : Z => i) Z.ltb off) (settings xt))) by (rewrite <- (firstn_skipn c); apply in_or_app; left; exact I).
  apply filter_In in I'. apply I'.
Qed.
