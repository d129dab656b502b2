(** Listing an ordered table over Netlink in several requests, the table
    possibly changing between requests: the part the BIB and the sessions share. *)
Require Import Verif.Base.
Require Import Sorted.

Section KeyPaging.
Context {A K : Type} (key : A -> K) (lt : K -> K -> Prop) (ltb : K -> K -> bool).
Hypothesis ltb_spec : forall a b, ltb a b = true <-> lt a b.
Hypothesis lt_trans : forall a b c, lt a b -> lt b c -> lt a c.
Hypothesis lt_irrefl : forall a, ~ lt a a.

Definition ascending (l : list A) : Prop := StronglySorted (fun x y => lt (key x) (key y)) l.
Definition beyond (off : option K) (x : A) : bool := match off with None => true | Some k => ltb k (key x) end.

(** One reply: the entries past the offset that fit, and whether there are more. *)
Definition key_page (l : list A) (off : option K) (cap : nat) : list A * bool :=
  let r := filter (beyond off) l in (firstn cap r, (cap <? length r)%nat).

(** What the user ends up with: everything, an error (an entry does not fit in a
    reply), or the requests considered so far were not enough. *)
Inductive outcome := Complete (l : list A) | Failed (l : list A) | Unfinished (l : list A).
Definition prepend (p : list A) (r : outcome) : outcome :=
  match r with Complete l => Complete (p ++ l) | Failed l => Failed (p ++ l) | Unfinished l => Unfinished (p ++ l) end.

(** The client: each request is answered by the table as it is then. *)
Fixpoint request_all (pages : list (option K -> list A * bool)) (off : option K) : outcome :=
  match pages with
  | [] => Unfinished []
  | pg :: rest =>
    let (p, more) := pg off in
    if more then
      match p with
      | [] => Failed []
      | x :: p' => prepend p (request_all rest (Some (key (last p' x))))
      end
    else Complete p
  end.

Lemma ascending_filter : forall f l, ascending l -> ascending (filter f l).
Proof.
  intros f l H. induction H as [|x l S IH F]; cbn [filter]; [constructor|]. destruct (f x); [|exact IH]. constructor; [exact IH|].
  apply Forall_forall. intros y Hy. apply filter_In in Hy. rewrite Forall_forall in F. apply F. apply Hy.
Qed.
Lemma ascending_split : forall a b, ascending (a ++ b) -> ascending a /\ ascending b /\ (forall x y, In x a -> In y b -> lt (key x) (key y)).
Proof.
  induction a as [|x a IH]; intros b H; cbn [app] in H.
  - split; [constructor|]. split; [exact H|]. intros x y [].
  - inversion H as [|x' l S F]; subst. destruct (IH b S) as (A1 & B & C). apply Forall_app in F. destruct F as [F1 F2]. split; [constructor; assumption|]. split; [exact B|].
    intros u v [<-|Hu] Hv; [rewrite Forall_forall in F2; apply F2; exact Hv|apply C; assumption].
Qed.
Lemma ascending_app : forall a b, ascending a -> ascending b -> (forall x y, In x a -> In y b -> lt (key x) (key y)) -> ascending (a ++ b).
Proof.
  intros a b Ha Hb H. induction Ha as [|x a S IH F]; cbn [app]; [exact Hb|]. constructor.
  - apply IH. intros u v Hu Hv. apply H; [right; exact Hu|exact Hv].
  - apply Forall_app. split; [exact F|]. apply Forall_forall. intros y Hy. apply H; [left; reflexivity|exact Hy].
Qed.
Lemma last_snoc : forall (p : list A) x, exists q, x :: p = q ++ [last p x].
Proof.
  induction p as [|y p IH]; intros x; [exists []; reflexivity|]. destruct (IH y) as (q & Hq). exists (x :: q). cbn [app]. f_equal.
  replace (last (y :: p) x) with (last p y); [exact Hq|]. clear. revert y. induction p as [|z p IH]; intros y; [reflexivity|]. cbn [last]. destruct p; [reflexivity|]. apply IH.
Qed.
Lemma below_last : forall p x y, ascending (x :: p) -> In y (x :: p) -> y = last p x \/ lt (key y) (key (last p x)).
Proof.
  intros p x y H Hy. destruct (last_snoc p x) as (q & Eq). rewrite Eq in *. apply ascending_split in H. destruct H as (_ & _ & H). apply in_app_iff in Hy.
  destruct Hy as [Hy|[Hy|[]]]; [right; apply H; [exact Hy|left; reflexivity]|left; auto].
Qed.

(** However the table changes: what is shown is in order, without repetitions,
    was in the table when it was shown; and no key that was there all along is missed. *)
Theorem request_all_keys : forall reqs off, Forall (fun r => ascending (fst r)) reqs -> Forall (fun r => (1 <= snd r)%nat) reqs ->
  match request_all (map (fun r off => key_page (fst r) off (snd r)) reqs) off with
  | Failed _ => False
  | Unfinished out => ascending out /\ (forall x, In x out -> beyond off x = true /\ exists r, In r reqs /\ In x (fst r)) /\ (length reqs <= length out)%nat
  | Complete out => ascending out /\ (forall x, In x out -> beyond off x = true /\ exists r, In r reqs /\ In x (fst r)) /\
      (forall k, (forall r, In r reqs -> exists x, In x (fst r) /\ key x = k) -> (match off with None => True | Some o => lt o k end) -> exists x, In x out /\ key x = k)
  end.
Proof.
  induction reqs as [|(l, cap) reqs IH]; intros off Hs Hc.
  - cbn. split; [constructor|]. split; [intros x []|lia].
  - inversion Hs as [|? ? Hs1 Hs2]; subst. inversion Hc as [|? ? Hc1 Hc2]; subst. cbn [fst snd] in *. cbn [map request_all fst snd]. unfold key_page at 1.
    set (r := filter (beyond off) l). assert (Hr : ascending r) by (apply ascending_filter; exact Hs1).
    assert (Hin : forall x, In x r <-> In x l /\ beyond off x = true) by (intros x; apply filter_In).
    destruct (Nat.ltb_spec cap (length r)) as [Hlt|Hge].
    + assert (El : r = firstn cap r ++ skipn cap r) by (symmetry; apply firstn_skipn).
      destruct (firstn cap r) as [|x p] eqn:Ef; [destruct cap; [lia|destruct r; [cbn in Hlt; lia|discriminate]]|].
      rewrite El in Hr. destruct (ascending_split _ _ Hr) as (R1 & R2 & R3).
      destruct (last_snoc p x) as (q & Eq). set (m := last p x) in *.
      assert (Hp : forall y, In y (x :: p) -> In y l /\ beyond off y = true) by (intros y Hy; apply Hin; rewrite El; apply in_or_app; left; exact Hy).
      assert (Hm : In m (x :: p)) by (rewrite Eq; apply in_or_app; right; left; reflexivity).
      specialize (IH (Some (key m)) Hs2 Hc2). set (X := request_all _ (Some (key m))) in *.
      assert (J : forall out, ascending out -> (forall y, In y out -> beyond (Some (key m)) y = true /\ exists rq, In rq reqs /\ In y (fst rq)) ->
        ascending ((x :: p) ++ out) /\ (forall y, In y ((x :: p) ++ out) -> beyond off y = true /\ exists rq, In rq ((l, cap) :: reqs) /\ In y (fst rq))).
      { intros out A1 A2. split.
        - apply ascending_app; [exact R1|exact A1|]. intros u v Hu Hv. destruct (A2 v Hv) as [A3 _]. apply ltb_spec in A3. destruct (below_last p x u R1 Hu) as [->|B]; [exact A3|]. eapply lt_trans; eassumption.
        - intros y Hy. apply in_app_iff in Hy. destruct Hy as [Hy|Hy].
          + destruct (Hp y Hy) as [H1 H2]. split; [exact H2|]. exists (l, cap). split; [left; reflexivity|exact H1].
          + destruct (A2 y Hy) as [A3 (rq & A4 & A5)]. split; [|exists rq; split; [right; exact A4|exact A5]]. apply ltb_spec in A3. destruct off as [k|]; [|reflexivity]. cbn [beyond].
            apply ltb_spec. destruct (Hp m Hm) as [_ H2]. apply ltb_spec in H2. eapply lt_trans; eassumption. }
      destruct X as [out|out|out]; cbn [prepend].
      * destruct IH as (I1 & I2 & I3). destruct (J out I1 I2) as [J1 J2]. split; [exact J1|]. split; [exact J2|].
        intros k Hk Hb. destruct (Hk (l, cap) (or_introl eq_refl)) as (y & Hy & Ey). cbn [fst] in Hy.
        assert (Hyr : In y r) by (apply Hin; split; [exact Hy|]; destruct off as [o|]; [|reflexivity]; cbn [beyond]; apply ltb_spec; rewrite Ey; exact Hb). rewrite El in Hyr. apply in_app_iff in Hyr.
        destruct Hyr as [Hyr|Hyr]; [exists y; split; [apply in_or_app; left; exact Hyr|exact Ey]|].
        destruct (I3 k) as (z & Hz & Ez); [intros rq Hrq; apply Hk; right; exact Hrq|rewrite <- Ey; apply R3; assumption|]. exists z. split; [apply in_or_app; right; exact Hz|exact Ez].
      * contradiction.
      * destruct IH as (I1 & I2 & I3). destruct (J out I1 I2) as [J1 J2]. split; [exact J1|]. split; [exact J2|]. rewrite app_length. cbn [length]. lia.
    + rewrite firstn_all2 by lia. split; [exact Hr|]. split.
      * intros x Hx. apply Hin in Hx. split; [apply Hx|]. exists (l, cap). split; [left; reflexivity|apply Hx].
      * intros k Hk Hb. destruct (Hk (l, cap) (or_introl eq_refl)) as (y & Hy & Ey). cbn [fst] in Hy. exists y. split; [|exact Ey].
        apply Hin. split; [exact Hy|]. destruct off as [o|]; [|reflexivity]. cbn [beyond]. apply ltb_spec. rewrite Ey. exact Hb.
Qed.
Lemma same_key : forall l x y, ascending l -> In x l -> In y l -> key x = key y -> x = y.
Proof.
  intros l x y H. induction H as [|z l S IH F]; [intros []|]. rewrite Forall_forall in F. intros [->|Hx] [->|Hy] E; auto; exfalso.
  - apply (lt_irrefl (key x)). rewrite E at 2. apply F. exact Hy.
  - apply (lt_irrefl (key y)). rewrite <- E at 2. apply F. exact Hx.
Qed.
(** Also, no entry that was there all along. *)
Theorem request_all_sound : forall reqs off, Forall (fun r => ascending (fst r)) reqs -> Forall (fun r => (1 <= snd r)%nat) reqs ->
  match request_all (map (fun r off => key_page (fst r) off (snd r)) reqs) off with
  | Failed _ => False
  | Unfinished out => ascending out /\ (forall x, In x out -> beyond off x = true /\ exists r, In r reqs /\ In x (fst r)) /\ (length reqs <= length out)%nat
  | Complete out => ascending out /\ (forall x, In x out -> beyond off x = true /\ exists r, In r reqs /\ In x (fst r)) /\
      (forall x, (forall r, In r reqs -> In x (fst r)) -> beyond off x = true -> In x out)
  end.
Proof.
  intros reqs off Hs Hc. pose proof (request_all_keys reqs off Hs Hc) as H. destruct (request_all _ off) as [out|out|out]; try exact H.
  destruct H as (H1 & H2 & H3). split; [exact H1|]. split; [exact H2|]. intros x Hx Hb.
  destruct (H3 (key x)) as (y & Hy & Ey); [intros r Hr; exists x; auto|destruct off as [o|]; [apply ltb_spec; exact Hb|exact Logic.I]|].
  destruct (H2 y Hy) as (_ & r & Hr & Hyr). rewrite Forall_forall in Hs. rewrite (same_key (fst r) x y (Hs r Hr) (Hx r Hr) Hyr (eq_sym Ey)). exact Hy.
Qed.

(** The table not changing: exactly its entries, in order. *)
Theorem request_all_exact : forall l caps, ascending l -> Forall (fun c => (1 <= c)%nat) caps -> (length l < length caps)%nat ->
  request_all (map (fun c off => key_page l off c) caps) None = Complete l.
Proof.
  intros l caps Hs Hc Hl. pose proof (request_all_sound (map (fun c => (l, c)) caps) None) as H. rewrite map_map in H. cbn [fst snd] in H.
  assert (Hu : forall a b : list A, ascending a -> ascending b -> (forall x, In x a <-> In x b) -> a = b).
  { induction a as [|x a IH]; intros b Ha Hb E.
    - destruct b as [|y b]; [reflexivity|]. exfalso. destruct (proj2 (E y) (or_introl eq_refl)).
    - destruct b as [|y b]; [exfalso; destruct (proj1 (E x) (or_introl eq_refl))|]. inversion Ha as [|? ? Sa Fa]; subst. inversion Hb as [|? ? Sb Fb]; subst. rewrite Forall_forall in Fa, Fb.
      assert (x = y).
      { destruct (proj1 (E x) (or_introl eq_refl)) as [X|X]; [auto|]. destruct (proj2 (E y) (or_introl eq_refl)) as [Y|Y]; [auto|]. exfalso. apply (lt_irrefl (key x)). eapply lt_trans; [apply Fa; exact Y|apply Fb; exact X]. }
      subst y. f_equal. apply IH; auto. intros z. split; intros Hz.
      + destruct (proj1 (E z) (or_intror Hz)) as [X|X]; [|exact X]. subst z. exfalso. apply (lt_irrefl (key x)). apply Fa. exact Hz.
      + destruct (proj2 (E z) (or_intror Hz)) as [X|X]; [|exact X]. subst z. exfalso. apply (lt_irrefl (key x)). apply Fb. exact Hz. }
  assert (Hin : forall r, In r (map (fun c => (l, c)) caps) -> fst r = l) by (intros r Hr; apply in_map_iff in Hr; destruct Hr as (c & <- & _); reflexivity).
  assert (Hne : caps <> []) by (intros ->; cbn in Hl; lia).
  destruct (request_all _ None) as [out|out|out].
  - destruct H as (H1 & H2 & H3).
    + apply Forall_forall. intros r Hr. rewrite (Hin r Hr). exact Hs.
    + apply Forall_forall. intros r Hr. apply in_map_iff in Hr. destruct Hr as (c & <- & Hr). rewrite Forall_forall in Hc. apply Hc. exact Hr.
    + f_equal. apply Hu; auto. intros x. split; intros Hx.
      * destruct (H2 x Hx) as (_ & r & Hr & Hx'). rewrite (Hin r Hr) in Hx'. exact Hx'.
      * apply H3; [|reflexivity]. intros r Hr. rewrite (Hin r Hr). exact Hx.
  - exfalso. apply H; apply Forall_forall; intros r Hr.
    + rewrite (Hin r Hr). exact Hs.
    + apply in_map_iff in Hr. destruct Hr as (c & <- & Hr). rewrite Forall_forall in Hc. apply Hc. exact Hr.
  - exfalso. destruct H as (H1 & H2 & H3).
    + apply Forall_forall. intros r Hr. rewrite (Hin r Hr). exact Hs.
    + apply Forall_forall. intros r Hr. apply in_map_iff in Hr. destruct Hr as (c & <- & Hr). rewrite Forall_forall in Hc. apply Hc. exact Hr.
    + rewrite map_length in H3. assert (Hnd : NoDup out).
      { clear - H1 lt_irrefl. induction H1 as [|x l S IH F]; constructor; auto. intros C. rewrite Forall_forall in F. exact (lt_irrefl _ (F x C)). }
      assert (Hincl : incl out l) by (intros x Hx; destruct (H2 x Hx) as (_ & r & Hr & Hx'); rewrite (Hin r Hr) in Hx'; exact Hx').
      pose proof (NoDup_incl_length Hnd Hincl). lia.
Qed.
End KeyPaging.
Arguments Complete {A}. Arguments Failed {A}. Arguments Unfinished {A}.
