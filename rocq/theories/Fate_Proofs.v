(** Lemmas about what becomes of packets. *)
From Coq Require FinFun Permutation.
Require Import Verif.Base Verif.Fate_Model Verif.Fate_Spec.

(** ** Things *)

Lemma thing_eqb_eq a b : thing_eqb a b = true <-> a = b.
Proof.
  split.
  - destruct a, b; cbn; intro H; try discriminate; rewrite ?andb_true_iff, ?Nat.eqb_eq in H;
      repeat match goal with H : _ /\ _ |- _ => destruct H end; subst; reflexivity.
  - intros <-. destruct a; cbn; rewrite ?Nat.eqb_refl; reflexivity.
Qed.

Lemma thing_eqb_refl t : thing_eqb t t = true.
Proof. now apply thing_eqb_eq. Qed.

Lemma thing_eqb_neq a b : a <> b -> thing_eqb a b = false.
Proof. intro H. destruct (thing_eqb a b) eqn:E; [apply thing_eqb_eq in E; contradiction | reflexivity]. Qed.

Definition mem (t : thing) (l : list thing) : bool := existsb (thing_eqb t) l.

Lemma mem_in t l : mem t l = true <-> In t l.
Proof.
  unfold mem. rewrite existsb_exists. split.
  - intros (u & Hu & E). apply thing_eqb_eq in E. now subst.
  - intro H. exists t. split; [exact H | apply thing_eqb_refl].
Qed.

Lemma mem_nin t l : mem t l = false <-> ~ In t l.
Proof. rewrite <- mem_in. destruct (mem t l); split; intro H; congruence || (now contradiction H). Qed.

Lemma mem_app t l l' : mem t (l ++ l') = mem t l || mem t l'.
Proof. unfold mem. apply existsb_app. Qed.

Lemma mem_cons t u l : mem t (u :: l) = thing_eqb t u || mem t l.
Proof. reflexivity. Qed.

Definition opt (r : option thing) : list thing := match r with Some r => [r] | None => [] end.
Definition things (l : list (thing * option thing)) : list thing := flat_map (fun b => fst b :: opt (snd b)) l.
Definition owned (x : xl) : list thing := things (x_out x) ++ opt (x_dst x).

Definition mine (p : nat) (t : thing) : bool :=
  match t with
  | Copy p' _ | Rebuilt p' | Route p' _ | RebuiltRoute p' => Nat.eqb p p'
  | _ => false
  end.

(** ** Lives *)

Lemma life_app t h e e' : life t h (e ++ e') = match life t h e with Some h => life t h e' | None => None end.
Proof.
  revert h. induction e as [|a e IH]; intro h; cbn [app life]; [reflexivity|].
  destruct a; cbn; try apply IH;
    repeat match goal with |- context [if ?c then _ else _] => destruct c end; try apply IH; reflexivity.
Qed.

Lemma life_kfree t h b : (mem t (fst b :: opt (snd b)) = true -> h = true) -> NoDup (fst b :: opt (snd b)) ->
  life t h (kfree_skb b) = Some (h && negb (mem t (fst b :: opt (snd b)))).
Proof.
  destruct b as [b [r|]]; cbn [fst snd opt kfree_skb]; intros Hh Hn.
  - inversion Hn as [|? ? Hb _]; subst. cbn [life].
    destruct (thing_eqb t r) eqn:Er.
    + apply thing_eqb_eq in Er. subst r. rewrite Hh by (unfold mem; cbn; rewrite thing_eqb_refl, orb_true_r; reflexivity).
      rewrite thing_eqb_neq by (intro; subst; apply Hb; left; reflexivity).
      unfold mem. cbn. rewrite thing_eqb_refl, orb_true_r. reflexivity.
    + destruct (thing_eqb t b) eqn:Eb.
      * rewrite Hh by (unfold mem; cbn; rewrite Eb; reflexivity). unfold mem. cbn. rewrite Eb. reflexivity.
      * unfold mem. cbn. rewrite Eb, Er. now rewrite andb_true_r.
  - cbn [life]. destruct (thing_eqb t b) eqn:Eb.
    + rewrite Hh by (unfold mem; cbn; rewrite Eb; reflexivity). unfold mem. cbn. rewrite Eb. reflexivity.
    + unfold mem. cbn. rewrite Eb. now rewrite andb_true_r.
Qed.

Lemma NoDup_app_l {A} (l l' : list A) : NoDup (l ++ l') -> NoDup l.
Proof. induction l as [|a l IH]; cbn; intro H; [constructor|]. inversion H; subst. constructor; [intro; apply H2, in_or_app; now left | now apply IH]. Qed.

Lemma NoDup_app_r {A} (l l' : list A) : NoDup (l ++ l') -> NoDup l'.
Proof. induction l as [|a l IH]; cbn; intro H; [exact H|]. inversion H; subst. now apply IH. Qed.

Lemma NoDup_app_disj {A} (l l' : list A) a : NoDup (l ++ l') -> In a l -> ~ In a l'.
Proof.
  induction l as [|b l IH]; cbn; intros H Ha Ha'; [contradiction|]. inversion H; subst.
  destruct Ha as [->|Ha]; [apply H2, in_or_app; now right | now apply (IH H3 Ha)].
Qed.

Lemma NoDup_app_intro {A} (l l' : list A) : NoDup l -> NoDup l' -> (forall a, In a l -> ~ In a l') -> NoDup (l ++ l').
Proof.
  induction l as [|a l IH]; cbn; intros H H' Hd; [exact H'|]. inversion H; subst. constructor.
  - intro Hi. apply in_app_or in Hi. destruct Hi as [Hi|Hi]; [contradiction | exact (Hd a (or_introl eq_refl) Hi)].
  - apply IH; auto.
Qed.

Lemma life_kfree_list t h l : (mem t (things l) = true -> h = true) -> NoDup (things l) ->
  life t h (kfree_skb_list l) = Some (h && negb (mem t (things l))).
Proof.
  revert h. induction l as [|b l IH]; intros h Hh Hn.
  - unfold mem. cbn. now rewrite andb_true_r.
  - change (things (b :: l)) with ((fst b :: opt (snd b)) ++ things l) in *.
    change (kfree_skb_list (b :: l)) with (kfree_skb b ++ kfree_skb_list l).
    rewrite mem_app in *.
    rewrite life_app, life_kfree; [| intro; apply Hh; now rewrite H | now apply NoDup_app_l in Hn].
    rewrite IH; [| | now apply NoDup_app_r in Hn].
    + f_equal. destruct h, (mem t (fst b :: opt (snd b))), (mem t (things l)); reflexivity.
    + intro Hm. rewrite Hh by (rewrite Hm; now rewrite orb_true_r). rewrite andb_true_l.
      destruct (mem t (fst b :: opt (snd b))) eqn:E; [|reflexivity].
      apply mem_in in E, Hm. exfalso. exact (NoDup_app_disj _ _ _ Hn E Hm).
Qed.

(** ** What each part does to the things: nothing is lost *)

Definition stolen (v : verdict) : bool := match v with Stolen => true | _ => false end.

(** The things of the second pass of a hairpin *)
Definition second (t : thing) : bool := mine 1 t || thing_eqb t (Xlation 1).

Definition foreign (p : nat) (t : thing) : bool := Nat.eqb p 0 && second t.

Record ok (p : nat) (x : xl) (e : list event) (v : verdict) (x' : xl) : Prop := Ok {
  ok_mine : forall t, mine p t = true -> life t (mem t (owned x)) e = Some (mem t (owned x'));
  ok_other : forall t h, mine p t = false -> t <> Incoming -> (foreign p t = true -> h = false) -> life t h e = Some h;
  ok_in : life Incoming true e = Some (negb (stolen v)) }.

Definition triple (p : nat) (Pre : xl -> Prop) (f : M) (Post Stop : xl -> Prop) : Prop :=
  forall x, Pre x -> let '(e, v, x') := f x in ok p x e v x' /\ (if match v with Continue => true | _ => false end then Post x' else Stop x').

Lemma triple_seq p Pre f Mid g Post Stop : triple p Pre f Mid Stop -> triple p Mid g Post Stop -> triple p Pre (f ;; g) Post Stop.
Proof.
  intros Hf Hg x Hx. specialize (Hf x Hx). unfold seq. destruct (f x) as [[e v] x1].
  destruct Hf as (Ho & Hc). destruct v; try (split; assumption).
  specialize (Hg x1 Hc). destruct (g x1) as [[e' v'] x2]. destruct Hg as (Ho' & Hc').
  split; [|exact Hc']. destruct Ho as [a1 a2 a3], Ho' as [b1 b2 b3]. split; intros.
  - rewrite life_app, a1 by assumption. now apply b1.
  - rewrite life_app, a2 by assumption. now apply b2.
  - rewrite life_app, a3. exact b3.
Qed.

Lemma triple_weaken p (Pre Pre' : xl -> Prop) f (Post Post' Stop Stop' : xl -> Prop) :
  triple p Pre f Post Stop -> (forall x, Pre' x -> Pre x) -> (forall x, Post x -> Post' x) -> (forall x, Stop x -> Stop' x) ->
  triple p Pre' f Post' Stop'.
Proof.
  intros H H1 H2 H3 x Hx. specialize (H x (H1 x Hx)). destruct (f x) as [[e v] x']. destruct H as (Ho & Hc).
  split; [exact Ho|]. destruct v; auto.
Qed.

Definition plain_events (e : list event) : Prop := Forall (fun a => match a with Count _ => True | _ => False end) e.

Lemma life_plain t h e : plain_events e -> life t h e = Some h.
Proof. intro H. induction H as [|a e Ha H IH]; [reflexivity|]. destruct a; try contradiction. exact IH. Qed.

Lemma triple_act p s (P : xl -> Prop) : (forall x i, P x -> P (Xl i (x_dst x) (x_out x))) -> triple p P (act s) P P.
Proof.
  intros HP x Hx. destruct s; cbn; (split; [split; intros; reflexivity | auto]).
Qed.

(** The states a pass goes through *)
Definition before (p : nat) (x : xl) : Prop := x_out x = [] /\ (x_dst x = None \/ x_dst x = Some (Route p 0)).
Definition routed (p : nat) (x : xl) : Prop := x_out x = [] /\ x_dst x = Some (Route p 0).
Definition made (p : nat) (dst : bool) (x : xl) : Prop :=
  x_dst x = None /\ x_out x <> [] /\ NoDup (things (x_out x)) /\ Forall (fun t => mine p t = true) (things (x_out x)) /\
  ~ In (Rebuilt p) (things (x_out x)) /\ ~ In (RebuiltRoute p) (things (x_out x)) /\
  (dst = true -> Forall (fun b => snd b <> None) (x_out x)).
Definition done (p : nat) (dst : bool) (x : xl) : Prop :=
  x_dst x = None /\ x_out x <> [] /\ NoDup (things (x_out x)) /\ Forall (fun t => mine p t = true) (things (x_out x)) /\
  (dst = true -> Forall (fun b => snd b <> None) (x_out x)).

Lemma made_done p d x : made p d x -> done p d x.
Proof. intros (a & b & c & e & f & g & h). repeat split; assumption. Qed.

Lemma before_icmp p x i : before p x -> before p (Xl i (x_dst x) (x_out x)).
Proof. exact (fun H => H). Qed.
Lemma routed_icmp p x i : routed p x -> routed p (Xl i (x_dst x) (x_out x)).
Proof. exact (fun H => H). Qed.
Lemma made_icmp p d x i : made p d x -> made p d (Xl i (x_dst x) (x_out x)).
Proof. exact (fun H => H). Qed.
Lemma done_icmp p d x i : done p d x -> done p d (Xl i (x_dst x) (x_out x)).
Proof. exact (fun H => H). Qed.

Lemma routed_before p x : routed p x -> before p x.
Proof. intros (a & b). split; auto. Qed.

Lemma triple_reverting_dst p f (Pre Post : xl -> Prop) :
  triple p Pre f Post (before p) -> triple p Pre (reverting f dst_release) Post (before p).
Proof.
  intros H x Hx. specialize (H x Hx). unfold reverting. destruct (f x) as [[e v] x1]. destruct H as (Ho & Hc).
  assert (G : forall v', v' = v -> v <> Continue -> before p x1 ->
    let '(e', x2) := dst_release x1 in ok p x (e ++ e') v' x2 /\ before p x2).
  { intros v' -> Hv (Hb & Hd). unfold dst_release. destruct Ho as [a1 a2 a3].
    destruct Hd as [Hd|Hd]; rewrite Hd.
    - rewrite app_nil_r. split; [now split | split; auto].
    - split; [|split; cbn; auto]. split; intros.
      + rewrite life_app, a1 by assumption. unfold owned. rewrite Hb, Hd. cbn.
        destruct (thing_eqb t (Route p 0)); reflexivity.
      + rewrite life_app, a2 by assumption. cbn. rewrite thing_eqb_neq; [reflexivity|].
        intro; subst t. cbn in H. now rewrite Nat.eqb_refl in H.
      + rewrite life_app, a3. cbn. destruct v; reflexivity. }
  destruct v; [split; assumption | | |];
    (specialize (G _ eq_refl ltac:(discriminate) Hc); destruct (dst_release x1) as [e' x2]; exact G).
Qed.

Lemma mine_route p i : mine p (Route p i) = true. Proof. apply Nat.eqb_refl. Qed.
Lemma mine_copy p i : mine p (Copy p i) = true. Proof. apply Nat.eqb_refl. Qed.

(** Routing *)
Lemma triple_take_route p b : triple p (fun x => x_out x = [] /\ x_dst x = None)
  (fun x => if b : bool then ([Take (Route p 0)], Continue, Xl (x_icmp x) (Some (Route p 0)) (x_out x))
            else ([Count FAILED_ROUTES], Untranslatable, x)) (routed p) (before p).
Proof.
  intros x (Ho & Hd). destruct b.
  - split; [|now split]. unfold owned. split; intros; cbn; unfold owned; cbn; rewrite ?Ho, ?Hd; cbn.
    + destruct (thing_eqb t (Route p 0)); reflexivity.
    + rewrite thing_eqb_neq; [reflexivity|]. intro; subst t. now rewrite mine_route in H.
    + reflexivity.
  - split; [split; intros; reflexivity | split; auto].
Qed.

Lemma triple_predict64_ p q hp : triple p (fun x => x_out x = [] /\ x_dst x = None) (predict_route64_ p q hp)
  (fun x => if hp then before p x else routed p x) (before p).
Proof.
  unfold predict_route64_. destruct hp.
  - eapply triple_seq with (Mid := before p).
    + intros x (Ho & Hd). split; [split; intros; reflexivity | split; auto].
    + apply triple_reverting_dst. eapply triple_weaken; [apply triple_act with (P := before p)| | |]; auto using before_icmp.
  - eapply triple_seq; [apply (triple_take_route p (q_found q))|].
    apply triple_reverting_dst. eapply triple_weaken; [apply triple_act with (P := routed p)| | |]; auto using routed_icmp, routed_before.
Qed.

Lemma triple_predict64 p q hp set : triple p (before p) (predict_route64 p q hp set)
  (fun x => if hp then before p x else routed p x) (before p).
Proof.
  unfold predict_route64. eapply triple_seq with (Mid := before p).
  - destruct set; apply triple_act; auto using before_icmp.
  - intros x Hx. destruct (x_dst x) eqn:Ed.
    + split; [split; intros; reflexivity|]. destruct Hx as (Ho & [Hd|Hd]); rewrite Hd in Ed; [discriminate|].
      destruct hp; split; auto.
    + apply triple_predict64_. split; [apply Hx | exact Ed].
Qed.

Lemma triple_alloc64 p q hp set : triple p (before p) (ttp64_alloc_skb p q hp set) (made p (negb hp)) (before p).
Proof.
  unfold ttp64_alloc_skb. eapply triple_seq; [apply triple_predict64|].
  apply triple_reverting_dst.
  assert (W : forall x, (if hp then before p x else routed p x) -> before p x) by (destruct hp; auto using routed_before).
  eapply triple_seq with (Mid := fun x => if hp then before p x else routed p x).
  - eapply triple_weaken; [apply triple_act with (P := fun x => if hp then before p x else routed p x)| | |]; auto.
  - intros x Hx. destruct (q_short q) as [k|].
    + split; [split; intros; reflexivity | auto].
    + pose proof (W x Hx) as (Ho & Hd). split.
      * split; intros; cbn.
        -- unfold owned. rewrite Ho. cbn. destruct Hd as [Hd|Hd]; rewrite Hd; cbn;
             (destruct (thing_eqb t (Copy p 0)) eqn:E; [apply thing_eqb_eq in E; subst t; reflexivity | reflexivity]).
        -- rewrite thing_eqb_neq; [reflexivity|]. intro; subst t. now rewrite mine_copy in H.
        -- reflexivity.
      * cbv beta iota. unfold made. cbn [x_dst x_out things flat_map fst snd]. rewrite app_nil_r.
        destruct Hd as [Hd|Hd]; rewrite Hd; cbn [opt]; (split; [reflexivity|]); (split; [discriminate|]);
          (split; [repeat constructor; cbn; intuition discriminate|]);
          (split; [repeat constructor; cbn; apply Nat.eqb_refl|]); (split; [cbn; intuition discriminate|]); (split; [cbn; intuition discriminate|]).
        -- intro Hh. destruct hp; [discriminate|]. destruct Hx as (_ & Hx). congruence.
        -- intros _. repeat constructor. discriminate.
Qed.

(** 4 to 6 *)
Lemma things_app l l' : things (l ++ l') = things l ++ things l'.
Proof. apply flat_map_app. Qed.

Definition chain (p i : nat) : list (thing * option thing) := map (fun k => (Copy p k, None)) (List.seq 0 i).

Lemma things_chain p i : things (chain p i) = map (Copy p) (List.seq 0 i).
Proof. unfold chain. induction (List.seq 0 i) as [|a l IH]; [reflexivity|]. cbn. f_equal. exact IH. Qed.

Lemma nodup_chain p i : NoDup (things (chain p i)).
Proof. rewrite things_chain. apply FinFun.Injective_map_NoDup; [intros a b H; congruence | apply seq_NoDup]. Qed.

Lemma chain_S p i : chain p (S i) = chain p i ++ [(Copy p i, None)].
Proof. unfold chain. rewrite seq_S, map_app. reflexivity. Qed.

Lemma mem_chain p i t : mem t (things (chain p i)) = true -> exists k, t = Copy p k /\ (k < i)%nat.
Proof.
  rewrite mem_in, things_chain, in_map_iff. intros (k & <- & Hk). apply in_seq in Hk. exists k. split; [reflexivity | lia].
Qed.

Definition chained (p i : nat) (x : xl) : Prop := x_dst x = Some (Route p 0) /\ x_out x = chain p i.

Lemma fail_chain p i x : chained p i x ->
  ok p x (kfree_skb_list (x_out x) ++ [Count ENOMEM]) Drop (Xl (x_icmp x) (x_dst x) []).
Proof.
  intros (Hd & Ho). split; intros.
  - rewrite life_app, life_kfree_list; [| | rewrite Ho; apply nodup_chain].
    + cbn. unfold owned. cbn. rewrite Hd, Ho, mem_app. f_equal.
      destruct (mem t (things (chain p i))) eqn:E; cbn; [|now rewrite andb_true_r].
      apply mem_chain in E. destruct E as (k & -> & _). reflexivity.
    + intro E. unfold owned. now rewrite mem_app, E.
  - rewrite life_app, life_kfree_list; [| | rewrite Ho; apply nodup_chain].
    + destruct (mem t (things (x_out x))) eqn:E; [|cbn; now rewrite andb_true_r].
      rewrite Ho in E. apply mem_chain in E. destruct E as (k & -> & _). now rewrite mine_copy in H.
    + intro E. rewrite Ho in E. apply mem_chain in E. destruct E as (k & -> & _). now rewrite mine_copy in H.
  - rewrite life_app, life_kfree_list; [| | rewrite Ho; apply nodup_chain].
    + destruct (mem Incoming (things (x_out x))) eqn:E; [|reflexivity].
      rewrite Ho in E. apply mem_chain in E. destruct E as (k & E & _). discriminate.
    + reflexivity.
Qed.

Lemma take_copy p i x e v x' : chained p i x ->
  ok p (Xl (x_icmp x) (x_dst x) (x_out x ++ [(Copy p i, None)])) e v x' -> ok p x (Take (Copy p i) :: e) v x'.
Proof.
  intros (Hd & Ho) [a1 a2 a3]. split; intros.
  - cbn [life]. specialize (a1 t H). destruct (thing_eqb t (Copy p i)) eqn:E.
    + apply thing_eqb_eq in E. subst t.
      replace (mem (Copy p i) (owned x)) with false.
      * replace true with (mem (Copy p i) (owned (Xl (x_icmp x) (x_dst x) (x_out x ++ [(Copy p i, None)])))); [exact a1|].
        apply mem_in. unfold owned. cbn. rewrite things_app. apply in_or_app. left. apply in_or_app. right. left. reflexivity.
      * symmetry. apply mem_nin. unfold owned. rewrite Ho, Hd. intro Hi. apply in_app_or in Hi. destruct Hi as [Hi|[Hi|[]]]; [|discriminate].
        apply mem_in, mem_chain in Hi. destruct Hi as (k & E & Hk). injection E as <-. lia.
    + rewrite <- a1. f_equal. unfold owned. cbn [x_out x_dst]. rewrite things_app, !mem_app. replace (mem t (things [(Copy p i, None)])) with false; [now rewrite orb_false_r|]. unfold mem. cbn. now rewrite E.
  - cbn [life]. rewrite thing_eqb_neq; [now apply a2|]. intro; subst t. now rewrite mine_copy in H.
  - cbn [life]. exact a3.
Qed.

Lemma triple_slow p short n i : triple p (chained p i) (allocate_slow p i n short) (chained p (i + n)) (before p).
Proof.
  revert i. induction n as [|n IH]; intros i x Hx.
  - cbn. rewrite Nat.add_0_r. split; [split; intros; reflexivity | exact Hx].
  - cbn [allocate_slow].
    assert (Hx' : chained p (S i) (Xl (x_icmp x) (x_dst x) (x_out x ++ [(Copy p i, None)]))).
    { destruct Hx as (Hd & Ho). split; cbn [x_dst x_out]; [exact Hd | now rewrite chain_S, Ho]. }
    assert (R : let '(e, v, x0) := allocate_slow p (S i) n short (Xl (x_icmp x) (x_dst x) (x_out x ++ [(Copy p i, None)])) in
      ok p x (Take (Copy p i) :: e) v x0 /\ (if match v with Continue => true | _ => false end then chained p (i + S n) x0 else before p x0)).
    { specialize (IH (S i) _ Hx'). destruct (allocate_slow p (S i) n short _) as [[e v] x0]. destruct IH as (Ho & Hc).
      replace (i + S n)%nat with (S i + n)%nat by lia. split; [now apply take_copy | exact Hc]. }
    destruct short as [[k torn]|].
    + destruct (Nat.eqb k i).
      * destruct torn.
        -- split; [|split; cbn; [reflexivity | right; apply Hx]].
           apply take_copy; [exact Hx|]. apply (fail_chain p (S i) _ Hx').
        -- split; [|split; cbn; [reflexivity | right; apply Hx]]. apply (fail_chain p i _ Hx).
      * destruct (allocate_slow p (S i) n (Some (k, torn)) _) as [[e v] x0]. exact R.
    + destruct (allocate_slow p (S i) n None _) as [[e v] x0]. exact R.
Qed.

Lemma triple_fast p short : triple p (routed p) (allocate_fast p short) (chained p 1) (before p).
Proof.
  intros x (Ho & Hd). unfold allocate_fast. destruct short.
  - split; [split; intros; reflexivity | split; auto].
  - split; [|split; [exact Hd | reflexivity]].
    apply take_copy; [split; [exact Hd | now rewrite Ho]|]. rewrite Ho. split; intros; reflexivity.
Qed.

Lemma life_takes t h l : NoDup l -> (h = true -> ~ In t l) -> life t h (map Take l) = Some (h || mem t l).
Proof.
  revert h. induction l as [|a l IH]; intros h Hn Hh; [unfold mem; cbn; now rewrite orb_false_r|].
  inversion Hn; subst. cbn [map life]. rewrite mem_cons. destruct (thing_eqb t a) eqn:E.
  - apply thing_eqb_eq in E. subst a. destruct h; [exfalso; apply Hh; [reflexivity | left; reflexivity]|].
    rewrite IH; [|assumption | auto]. reflexivity.
  - rewrite IH; [reflexivity | assumption|]. intros ->. intro. apply Hh; [reflexivity | right; assumption].
Qed.

Lemma things_combine p l : forall k n, length l = n ->
  Permutation.Permutation (things (combine l (map Some (map (fun i => Route p (S i)) (List.seq k n)))))
    (l ++ map (fun i => Route p (S i)) (List.seq k n)).
Proof.
  induction l as [|b l IH]; intros k n Hn; subst n; cbn; [constructor|].
  constructor. eapply Permutation.perm_trans; [|apply Permutation.Permutation_middle].
  constructor. exact (IH (S k) (length l) eq_refl).
Qed.

Lemma mem_perm t l l' : Permutation.Permutation l l' -> mem t l = mem t l'.
Proof.
  intro H. destruct (mem t l) eqn:E.
  - symmetry. apply mem_in. apply mem_in in E. eapply Permutation.Permutation_in; eassumption.
  - symmetry. apply mem_nin. apply mem_nin in E. intro Hi. apply E. eapply Permutation.Permutation_in; [apply Permutation.Permutation_sym; eassumption | exact Hi].
Qed.

Lemma map_fst_chain p k n : map fst (map (fun k => (Copy p k, @None thing)) (List.seq k n)) = map (Copy p) (List.seq k n).
Proof. rewrite map_map. reflexivity. Qed.

Lemma triple_autofill p n : triple p (chained p (S n)) (fun x => let '(e, x) := autofill_dst p x in (e, Continue, x)) (fun x => made p true x /\ length (x_out x) = S n) (before p).
Proof.
  intros x (Hd & Ho). unfold autofill_dst. rewrite Ho, Hd.
  change (chain p (S n)) with ((Copy p 0, @None thing) :: map (fun k => (Copy p k, @None thing)) (List.seq 1 n)).
  cbv beta iota zeta. rewrite map_length, seq_length, map_fst_chain.
  set (R := map (fun i => Route p (S i)) (List.seq 0 n)).
  set (C := map (Copy p) (List.seq 1 n)).
  assert (Hlen : length C = n) by (unfold C; now rewrite map_length, seq_length).
  pose proof (things_combine p C 0 n Hlen) as HP. fold R in HP.
  assert (HR : forall t, In t R -> exists i, t = Route p (S i)) by (intros t Hi; apply in_map_iff in Hi; destruct Hi as (i & <- & _); now exists i).
  assert (HC : forall t, In t C -> exists i, t = Copy p (S i)).
  { intros t Hi. apply in_map_iff in Hi. destruct Hi as (i & <- & Hi). apply in_seq in Hi. exists (i - 1)%nat. f_equal. lia. }
  assert (NR : NoDup R) by (apply FinFun.Injective_map_NoDup; [intros a b H; congruence | apply seq_NoDup]).
  assert (NC : NoDup C) by (apply FinFun.Injective_map_NoDup; [intros a b H; congruence | apply seq_NoDup]).
  assert (NP : NoDup (C ++ R)).
  { apply NoDup_app_intro; [exact NC | exact NR|]. intros t Hi Hi'. destruct (HC t Hi) as (i & ->). destruct (HR _ Hi') as (k & E). discriminate. }
  assert (HT : forall rest, things ((Copy p 0, Some (Route p 0)) :: rest) = Copy p 0 :: Route p 0 :: things rest) by reflexivity.
  split.
  - split; intros.
    + rewrite life_takes.
      * unfold owned. cbn [x_out x_dst]. rewrite Ho, Hd, HT, things_chain, app_nil_r, mem_app, !mem_cons, (mem_perm _ _ _ HP), mem_app.
        cbn [List.seq map]. rewrite mem_cons. fold C. unfold mem at 2. cbn [existsb opt]. f_equal.
        repeat match goal with |- context [thing_eqb ?a ?b] => destruct (thing_eqb a b) end; destruct (mem t C), (mem t R); reflexivity.
      * exact NR.
      * intros Hm Hi. apply mem_in in Hm. unfold owned in Hm. rewrite Ho, Hd in Hm. apply in_app_or in Hm.
        destruct (HR _ Hi) as (k & ->). destruct Hm as [Hm|[Hm|[]]]; [|discriminate].
        apply mem_in, mem_chain in Hm. destruct Hm as (j & Hj & _). discriminate.
    + rewrite life_takes; [|exact NR | intros _ Hi; destruct (HR _ Hi) as (k & ->); now rewrite mine_route in H].
      destruct (mem t R) eqn:E; [|now rewrite orb_false_r]. apply mem_in, HR in E. destruct E as (k & ->). now rewrite mine_route in H.
    + rewrite life_takes; [reflexivity | exact NR | intros _ Hi; destruct (HR _ Hi) as (k & E); discriminate].
  - cbv beta iota. split; [|cbn [x_out length]; rewrite combine_length, map_length; unfold R; rewrite map_length, seq_length, Hlen, Nat.min_id; reflexivity].
    unfold made. cbn [x_out x_dst]. split; [reflexivity|]. split; [discriminate|]. rewrite HT.
    assert (Hin : forall t, In t (things (combine C (map Some R))) -> (exists i, t = Copy p (S i)) \/ (exists i, t = Route p (S i))).
    { intros t Hi. apply (Permutation.Permutation_in _ HP) in Hi. apply in_app_or in Hi. destruct Hi as [Hi|Hi]; [left; now apply HC | right; now apply HR]. }
    split; [|split; [|split; [|split]]].
    + constructor; [intros [E|Hi]; [discriminate|]; destruct (Hin _ Hi) as [(i & E)|(i & E)]; discriminate|].
      constructor; [intros Hi; destruct (Hin _ Hi) as [(i & E)|(i & E)]; discriminate|].
      eapply Permutation.Permutation_NoDup; [apply Permutation.Permutation_sym; exact HP | exact NP].
    + constructor; [apply mine_copy|]. constructor; [apply mine_route|]. apply Forall_forall. intros t Hi.
      destruct (Hin _ Hi) as [(i & ->)|(i & ->)]; [apply mine_copy | apply mine_route].
    + intros [E|[E|Hi]]; try discriminate. destruct (Hin _ Hi) as [(i & E)|(i & E)]; discriminate.
    + intros [E|[E|Hi]]; try discriminate. destruct (Hin _ Hi) as [(i & E)|(i & E)]; discriminate.
    + intros _. constructor; [discriminate|]. apply Forall_forall. intros [b o] Hi. apply in_combine_r in Hi.
      apply in_map_iff in Hi. destruct Hi as (r & <- & _). discriminate.
Qed.

Lemma triple_alloc46 p q : triple p (fun x => x_out x = [] /\ x_dst x = None) (ttp46_alloc_skb p q) (fun x => made p true x /\ length (x_out x) = S (more q)) (before p).
Proof.
  unfold ttp46_alloc_skb. eapply triple_seq with (Mid := fun x => x_out x = [] /\ x_dst x = None).
  { eapply triple_weaken; [apply triple_act with (P := fun x => x_out x = [] /\ x_dst x = None)| | |]; auto.
    intros x (a & b). split; auto. }
  eapply triple_seq with (Mid := routed p).
  { unfold predict_route46. eapply triple_seq; [apply (triple_take_route p (q_found q))|].
    apply triple_reverting_dst. eapply triple_weaken; [apply triple_act with (P := routed p)| | |]; auto using routed_icmp, routed_before. }
  eapply triple_seq; [|apply (triple_autofill p (more q))].
  apply triple_reverting_dst. eapply triple_seq with (Mid := routed p).
  { eapply triple_weaken; [apply triple_act with (P := routed p)| | |]; auto using routed_icmp, routed_before. }
  destruct (more q) as [|m].
  - apply triple_fast.
  - eapply triple_weaken; [apply (triple_slow p (q_short q) (S (S m)) 0)| | |]; auto.
    intros x (a & b). split; [exact b | exact a].
Qed.

(** fix_ie *)
Arguments mem : simpl never.
Definition fix_list p (o : fix_outcome) : M := fun x =>
  match o, x_out x with
  | NoFix, _ | _, [] => ([], Continue, x)
  | FixNoMem, _ => ([Count ENOMEM], Drop, x)
  | FixTorn, _ => ([Take (Rebuilt p); Count UNKNOWN], Drop, x)
  | Fixed, (b, Some r) :: l =>
    ([Take (Rebuilt p); Take (RebuiltRoute p)] ++ kfree_skb (b, Some r), Continue,
     Xl (x_icmp x) (x_dst x) ((Rebuilt p, Some (RebuiltRoute p)) :: l))
  | Fixed, (b, None) :: l =>
    (Take (Rebuilt p) :: kfree_skb (b, None), Continue, Xl (x_icmp x) (x_dst x) ((Rebuilt p, None) :: l))
  end.

Lemma fix_single p o x : (o <> NoFix -> length (x_out x) = 1%nat) -> fix_ie p o x = fix_list p o x.
Proof.
  intro H. unfold fix_ie, fix_list. destruct o; try reflexivity. specialize (H ltac:(discriminate)).
  destruct (x_out x) as [|[b r] [|? ?]]; try discriminate. destruct r; reflexivity.
Qed.

Lemma triple_fix p d o : o <> FixTorn ->
  triple p (fun x => made p d x /\ (o <> NoFix -> length (x_out x) = 1%nat)) (fix_ie p o) (done p d) (done p d).
Proof.
  intros Ho x (Hx & Hone). rewrite (fix_single _ _ _ Hone). clear Hone.
  pose proof (made_done _ _ _ Hx) as Hdone. destruct Hx as (Hd & Hne & Hn & Hm & H1 & H2 & Hr).
  unfold fix_list. destruct (x_out x) as [|[b r] l] eqn:Ex; [contradiction|].
  destruct o; try contradiction.
  - split; [split; intros; reflexivity | exact Hdone].
  - change (things ((b, r) :: l)) with ((b :: opt r) ++ things l) in *.
    pose proof (NoDup_app_l _ _ Hn) as N1. pose proof (NoDup_app_r _ _ Hn) as N2.
    assert (Hmine : forall t, In t ((b :: opt r) ++ things l) -> mine p t = true) by now apply Forall_forall.
    destruct r as [r|].
    + split.
      * split; intros.
        -- unfold owned. rewrite Ex, Hd. cbn [x_out x_dst opt]. rewrite !app_nil_r.
           change (things ((b, Some r) :: l)) with ((b :: opt (Some r)) ++ things l).
           change (things ((Rebuilt p, Some (RebuiltRoute p)) :: l)) with ([Rebuilt p; RebuiltRoute p] ++ things l).
           rewrite life_app. rewrite (life_takes t _ [Rebuilt p; RebuiltRoute p]).
           2: { repeat constructor; cbn; intuition discriminate. }
           2: { intros Hi [E|[E|[]]]; subst t; apply mem_in in Hi; contradiction. }
           rewrite life_kfree; [| cbn [fst snd opt]; intro E; rewrite mem_app, E; reflexivity | exact N1].
           cbn [fst snd opt]. rewrite !mem_app. f_equal.
           destruct (mem t (b :: opt (Some r))) eqn:E; cbn [opt] in E; rewrite ?E.
           ++ cbn [negb]. rewrite andb_false_r. apply mem_in in E. replace (mem t (things l)) with false by (symmetry; apply mem_nin; now apply (NoDup_app_disj _ _ _ Hn)).
              symmetry. apply orb_false_iff. split; [|reflexivity]. apply mem_nin. intros [F|[F|[]]]; subst t.
              ** apply H1. apply in_or_app. now left.
              ** apply H2. apply in_or_app. now left.
           ++ cbn [negb orb]. rewrite andb_true_r. apply orb_comm.
        -- change [Take (Rebuilt p); Take (RebuiltRoute p)] with (map Take [Rebuilt p; RebuiltRoute p]).
           rewrite life_app, (life_takes t h [Rebuilt p; RebuiltRoute p]).
           2: { repeat constructor; cbn; intuition discriminate. }
           2: { intros _ [E|[E|[]]]; subst t; cbn in H; now rewrite Nat.eqb_refl in H. }
           replace (mem t [Rebuilt p; RebuiltRoute p]) with false.
           2: { symmetry. apply mem_nin. intros [E|[E|[]]]; subst t; cbn in H; now rewrite Nat.eqb_refl in H. }
           assert (Hf : mem t (b :: opt (Some r)) = false).
           { apply mem_nin. intro Hi. rewrite (Hmine t (in_or_app _ _ _ (or_introl Hi))) in H. discriminate. }
           rewrite life_kfree; cbn [fst snd]; [rewrite Hf, orb_false_r, andb_true_r; reflexivity | rewrite Hf; discriminate | exact N1].
        -- assert (Hf : mem Incoming (b :: opt (Some r)) = false).
           { apply mem_nin. intro Hi. pose proof (Hmine _ (in_or_app _ _ _ (or_introl Hi))). discriminate. }
           rewrite life_app. cbn [life thing_eqb]. rewrite life_kfree; cbn [fst snd]; [rewrite Hf; reflexivity | reflexivity | exact N1].
      * cbv beta iota. split; [exact Hd|]. cbn [x_out]. split; [discriminate|]. change (things ((Rebuilt p, Some (RebuiltRoute p)) :: l)) with (Rebuilt p :: RebuiltRoute p :: things l).
        split; [|split].
        -- constructor; [intros [E|E]; [discriminate | apply H1, in_or_app; now right]|].
           constructor; [intro E; apply H2, in_or_app; now right | exact N2].
        -- repeat constructor; [apply Nat.eqb_refl | apply Nat.eqb_refl|]. apply Forall_forall. intros t Ht. apply Hmine, in_or_app. now right.
        -- intro Hdt. specialize (Hr Hdt). inversion Hr; subst. constructor; [discriminate | assumption].
    + split.
      * split; intros.
        -- unfold owned. rewrite Ex, Hd. cbn [x_out x_dst opt]. rewrite !app_nil_r.
           change (things ((b, None) :: l)) with ((b :: opt None) ++ things l).
           change (things ((Rebuilt p, None) :: l)) with ([Rebuilt p] ++ things l).
           change (Take (Rebuilt p) :: kfree_skb (b, None)) with (map Take [Rebuilt p] ++ kfree_skb (b, None)).
           rewrite life_app. rewrite (life_takes t _ [Rebuilt p]).
           2: { repeat constructor; cbn; intuition discriminate. }
           2: { intros Hi [E|[]]; subst t; apply mem_in in Hi; contradiction. }
           rewrite life_kfree; [| cbn [fst snd opt]; intro E; rewrite mem_app, E; reflexivity | exact N1].
           cbn [fst snd opt]. rewrite !mem_app. f_equal.
           destruct (mem t (b :: opt None)) eqn:E; cbn [opt] in E; rewrite ?E.
           ++ cbn [negb]. rewrite andb_false_r. apply mem_in in E. replace (mem t (things l)) with false by (symmetry; apply mem_nin; now apply (NoDup_app_disj _ _ _ Hn)).
              symmetry. apply orb_false_iff. split; [|reflexivity]. apply mem_nin. intros [F|[]]; subst t.
              apply H1. apply in_or_app. now left.
           ++ cbn [negb orb]. rewrite andb_true_r. apply orb_comm.
        -- change (Take (Rebuilt p) :: kfree_skb (b, None)) with (map Take [Rebuilt p] ++ kfree_skb (b, None)).
           rewrite life_app, (life_takes t h [Rebuilt p]).
           2: { repeat constructor; cbn; intuition discriminate. }
           2: { intros _ [E|[]]; subst t; cbn in H; now rewrite Nat.eqb_refl in H. }
           replace (mem t [Rebuilt p]) with false.
           2: { symmetry. apply mem_nin. intros [E|[]]; subst t; cbn in H; now rewrite Nat.eqb_refl in H. }
           assert (Hf : mem t (b :: opt None) = false).
           { apply mem_nin. intro Hi. rewrite (Hmine t (in_or_app _ _ _ (or_introl Hi))) in H. discriminate. }
           rewrite life_kfree; cbn [fst snd]; [rewrite Hf, orb_false_r, andb_true_r; reflexivity | rewrite Hf; discriminate | exact N1].
        -- assert (Hf : mem Incoming (b :: opt None) = false).
           { apply mem_nin. intro Hi. pose proof (Hmine _ (in_or_app _ _ _ (or_introl Hi))). discriminate. }
           cbn [life thing_eqb]. rewrite life_kfree; cbn [fst snd]; [rewrite Hf; reflexivity | reflexivity | exact N1].
      * cbv beta iota. split; [exact Hd|]. cbn [x_out]. split; [discriminate|]. change (things ((Rebuilt p, None) :: l)) with (Rebuilt p :: things l).
        split; [|split].
        -- constructor; [intros E; apply H1, in_or_app; now right | exact N2].
        -- repeat constructor; [apply Nat.eqb_refl|]. apply Forall_forall. intros t Ht. apply Hmine, in_or_app. now right.
        -- intro Hdt. specialize (Hr Hdt). inversion Hr; subst. exfalso. now apply H3.
  - split; [split; intros; reflexivity | exact Hdone].
Qed.

(** Freeing, or sending, everything *)
Lemma ok_kfree_all p d x : done p d x -> ok p x (kfree_skb_list (x_out x)) Drop (Xl (x_icmp x) (x_dst x) []).
Proof.
  intros (Hd & _ & Hn & Hm & _). rewrite Forall_forall in Hm. split; intros.
  - rewrite life_kfree_list; [| | exact Hn].
    + unfold owned. cbn. rewrite Hd, app_nil_r. f_equal. destruct (mem t (things (x_out x))); reflexivity.
    + intro E. unfold owned. now rewrite mem_app, E.
  - assert (E : mem t (things (x_out x)) = false) by (apply mem_nin; intro Hi; rewrite (Hm t Hi) in H; discriminate).
    rewrite life_kfree_list; [rewrite E; now rewrite andb_true_r | rewrite E; discriminate | exact Hn].
  - assert (E : mem Incoming (things (x_out x)) = false) by (apply mem_nin; intro Hi; specialize (Hm _ Hi); discriminate).
    rewrite life_kfree_list; [rewrite E; reflexivity | reflexivity | exact Hn].
Qed.

Lemma life_in_kfree p d x h : done p d x -> life Incoming h (kfree_skb_list (x_out x)) = Some h.
Proof.
  intros (Hd & _ & Hn & Hm & _). rewrite Forall_forall in Hm.
  assert (E : mem Incoming (things (x_out x)) = false) by (apply mem_nin; intro Hi; specialize (Hm _ Hi); discriminate).
  rewrite life_kfree_list; [rewrite E; now rewrite andb_true_r | rewrite E; discriminate | exact Hn].
Qed.

Lemma life_send t q l : Forall (fun b => snd b <> None) l -> NoDup (things l) ->
  forall i h, (mem t (things l) = true -> h = true) ->
  life t h (fst (sendpkt_list q i l)) = Some (h && negb (mem t (things l))).
Proof.
  induction l as [|[b r] l IH]; intros Hs Hn i h Hh.
  - unfold mem. cbn. now rewrite andb_true_r.
  - inversion Hs as [|? ? Hb Hs']; subst. cbn [snd] in Hb. destruct r as [r|]; [|now contradiction Hb].
    change (things ((b, Some r) :: l)) with (b :: r :: things l) in *.
    inversion Hn as [|? ? Nb Nr]; subst. inversion Nr as [|? ? Nr' Nl]; subst.
    cbn [sendpkt_list]. rewrite !mem_cons in *.
    assert (G : life t (h && negb (thing_eqb t b || thing_eqb t r)) (fst (sendpkt_list q (S i) l)) = Some (h && negb (thing_eqb t b || (thing_eqb t r || mem t (things l)))) /\
                life t (h && negb (thing_eqb t b || thing_eqb t r)) (kfree_skb_list l) = Some (h && negb (thing_eqb t b || (thing_eqb t r || mem t (things l))))).
    { assert (Hh' : mem t (things l) = true -> h && negb (thing_eqb t b || thing_eqb t r) = true).
      { intro E. rewrite Hh by (rewrite E; now rewrite !orb_true_r). cbn.
        apply mem_in in E. rewrite !thing_eqb_neq; [reflexivity | | ]; intro; subst t; [contradiction | apply Nb; now right]. }
      split; [rewrite (IH Hs' Nl (S i) _ Hh') | rewrite (life_kfree_list _ _ _ Hh' Nl)]; f_equal;
        destruct h, (thing_eqb t b), (thing_eqb t r), (mem t (things l)); reflexivity. }
    destruct G as (G1 & G2).
    assert (Hout : forall e, life t h (Output b r :: e) = life t (h && negb (thing_eqb t b || thing_eqb t r)) e).
    { intro e. cbn [life]. destruct (thing_eqb t b || thing_eqb t r) eqn:E; [|cbn; now rewrite andb_true_r].
      rewrite Hh by (apply orb_true_iff in E; destruct E as [E|E]; rewrite E; [reflexivity | cbn; now rewrite orb_true_r]).
      reflexivity. }
    destruct (q_lacking q i).
    + cbn [fst]. rewrite Hout. cbn [life]. exact G2.
    + destruct (sendpkt_list q (S i) l) as [e v] eqn:Es. cbn [fst] in *. rewrite Hout. exact G1.
Qed.

Lemma send_verdict q l : forall i, snd (sendpkt_list q i l) = Continue \/ snd (sendpkt_list q i l) = Drop.
Proof.
  induction l as [|[b [r|]] l IH]; intro i; cbn; auto. destruct (q_lacking q i); [auto|].
  specialize (IH (S i)). destruct (sendpkt_list q (S i) l). exact IH.
Qed.

Lemma triple_send p q : triple p (done p true) (sendpkt_send q) (before p) (before p).
Proof.
  intros x (Hd & _ & Hn & Hm & Hs). specialize (Hs eq_refl). unfold sendpkt_send.
  pose proof (send_verdict q (x_out x) 0) as Hv.
  destruct (sendpkt_list q 0 (x_out x)) as [e v] eqn:Es. cbn [snd] in Hv.
  assert (He : e = fst (sendpkt_list q 0 (x_out x))) by now rewrite Es. rewrite Forall_forall in Hm.
  split; [|destruct v; cbv beta iota; split; cbn; auto].
  subst e. split; intros.
  - rewrite life_send; [| exact Hs | exact Hn |].
    + unfold owned. cbn. rewrite Hd, app_nil_r. f_equal. destruct (mem t (things (x_out x))); reflexivity.
    + intro E. unfold owned. now rewrite mem_app, E.
  - assert (E : mem t (things (x_out x)) = false) by (apply mem_nin; intro Hi; rewrite (Hm t Hi) in H; discriminate).
    rewrite life_send; [rewrite E; now rewrite andb_true_r | exact Hs | exact Hn | rewrite E; discriminate].
  - assert (E : mem Incoming (things (x_out x)) = false) by (apply mem_nin; intro Hi; specialize (Hm _ Hi); discriminate).
    rewrite life_send; [rewrite E | exact Hs | exact Hn | reflexivity]. destruct Hv as [-> | ->]; reflexivity.
Qed.

Definition post (f : M) (P : xl -> Prop) : Prop := forall x, let '(_, v, x') := f x in v = Continue -> P x'.

Lemma post_seq f g P : post g P -> post (f ;; g) P.
Proof.
  intros H x. unfold seq. destruct (f x) as [[e v] x1]. destruct v; try discriminate.
  specialize (H x1). destruct (g x1) as [[e' v'] x2]. exact H.
Qed.

Lemma post_reverting f r P : post f P -> post (reverting f r) P.
Proof.
  intros H x. specialize (H x). unfold reverting. destruct (f x) as [[e v] x1].
  destruct v; [exact H | | |]; destruct (r x1); discriminate.
Qed.

Definition single (x : xl) : Prop := exists b r, x_out x = [(b, r)].

Lemma triple_post p Pre f Post Stop P : triple p Pre f Post Stop -> post f P -> triple p Pre f (fun x => Post x /\ P x) Stop.
Proof.
  intros H K x Hx. specialize (H x Hx). specialize (K x). destruct (f x) as [[e v] x']. destruct H as (a & b).
  split; [exact a|]. destruct v; auto.
Qed.

Lemma alloc64_single p q hp set : post (ttp64_alloc_skb p q hp set) single.
Proof. apply post_seq, post_reverting, post_seq. intro y. destruct (q_short q); [discriminate|]. intros _. now exists (Copy p 0), (x_dst y). Qed.

(** The translation *)
Lemma triple_xlat p q f hp set : healthy_pass q ->
  triple p (fun x => before p x /\ (f = P4 -> x_dst x = None)) (translating_the_packet p q f hp set)
    (done p (match f with P6 => negb hp | P4 => true end)) (before p).
Proof.
  intros (Hfix & Hnull). unfold translating_the_packet. set (d := match f with P6 => negb hp | P4 => true end).
  set (N := fun x => made p d x /\ (fixes q <> NoFix -> length (x_out x) = 1%nat)).
  eapply triple_seq with (Mid := N).
  - unfold N. destruct f.
    + eapply triple_weaken; [apply triple_alloc46| | |]; auto.
      * intros x ((a & _) & b). split; auto.
      * intros x (a & b). split; [exact a|]. unfold fixes, more in *. destruct (q_error q); [auto | contradiction].
    + eapply triple_weaken; [apply triple_post; [apply triple_alloc64 | apply alloc64_single]| | |]; auto.
      * intros x (a & _). exact a.
      * intros x (a & (u & r & b)). split; [exact a|]. intros _. now rewrite b.
  - intros x Hx.
    assert (NI : forall x i, N x -> N (Xl i (x_dst x) (x_out x))) by (intros y i (a & b); split; [apply made_icmp, a | exact b]).
    assert (ND : forall x, N x -> done p d x) by (intros y (a & _); apply made_done, a).
    assert (T : triple p N (act (q_l3 q) ;; (if q_l4 q then fix_ie p (fixes q) ;; act (q_l4xlat q) else act Go)) (done p d) (done p d)).
    { eapply triple_seq with (Mid := N).
      - eapply triple_weaken; [apply triple_act with (P := N)| | |]; auto.
      - destruct (q_l4 q).
        + eapply triple_seq; [apply triple_fix; unfold fixes; destruct (q_error q); [exact Hfix | discriminate]|]. apply triple_act. auto using done_icmp.
        + eapply triple_weaken; [apply triple_act with (P := N)| | |]; auto. }
    specialize (T x Hx). unfold reverting. destruct ((act (q_l3 q) ;; _) x) as [[e v] x1]. destruct T as (Ho & Hc).
    assert (G : forall v', v' = v -> v <> Continue -> done p d x1 ->
      let '(e', x2) := kfree_skb_list_ q x1 in ok p x (e ++ e') v' x2 /\ before p x2).
    { intros v' -> Hv Hd1. unfold kfree_skb_list_. rewrite Hnull. destruct (ok_kfree_all p d x1 Hd1) as [b1 b2 b3].
      destruct Ho as [a1 a2 a3]. split; [|split; cbn; [reflexivity | left; apply Hd1]]. split; intros.
      - rewrite life_app, a1 by assumption. now apply b1.
      - rewrite life_app, a2 by assumption. now apply b2.
      - rewrite life_app, a3. now apply life_in_kfree with (p := p) (d := d). }
    destruct v; [split; assumption | | |];
      (specialize (G _ eq_refl ltac:(discriminate) Hc); destruct (kfree_skb_list_ q x1) as [e' x2]; exact G).
Qed.

(** ** The core *)

Definition starts (p : nat) (f : ipv) (x : xl) : Prop := before p x /\ (f = P4 -> x_dst x = None).

Lemma triple_filter p f s : triple p (starts p f) (filter s) (starts p f) (before p).
Proof.
  destruct s as [s|j].
  - eapply triple_weaken; [apply triple_act with (P := starts p f)| | |]; auto. intros x (a & _). exact a.
  - intros x (a & _). split; [|exact a]. split; intros; cbn; try reflexivity.
    + rewrite thing_eqb_neq; [reflexivity|]. intro; subst t. discriminate.
    + rewrite thing_eqb_neq by assumption. reflexivity.
Qed.

Lemma triple_filtering p c f q : triple p (starts p f) (filtering c f p q) (starts p f) (before p).
Proof.
  unfold filtering. eapply triple_seq; [|apply triple_filter].
  unfold early. assert (G : triple p (starts p f) (act Go) (starts p f) (before p)).
  { eapply triple_weaken; [apply triple_act with (P := starts p f)| | |]; auto. intros x (a & _). exact a. }
  destruct (c_type c); [exact G|]. destruct f; [exact G|]. destruct (q_early q); [|exact G].
  eapply triple_weaken; [apply triple_predict64| | |]; cbv beta iota.
  - intros x (a & _). exact a.
  - intros x a. split; [now apply routed_before | discriminate].
  - auto.
Qed.

Lemma starts_act p f s : triple p (starts p f) (act s) (starts p f) (before p).
Proof. eapply triple_weaken; [apply triple_act with (P := starts p f)| | |]; auto. intros x (a & _). exact a. Qed.

Lemma ok_hairpin c q2 : (forall q, q2 = Some q -> healthy_pass q) ->
  let '(e, v) := handling_hairpinning c P4 q2 in
  (forall t h, t <> Incoming -> (second t = true -> h = false) -> life t h e = Some h) /\
  life Incoming true e = Some (negb (stolen v)).
Proof.
  intro Hq. unfold handling_hairpinning. destruct q2 as [q|]; [|split; reflexivity]. specialize (Hq q eq_refl).
  set (m := (match c_type c with NAT64 => _ | SIIT => _ end ;; _)).
  assert (T : triple 1 (starts 1 P4) m (before 1) (before 1)).
  { unfold m. eapply triple_seq with (Mid := starts 1 P4).
    - destruct (c_type c); [apply starts_act|]. eapply triple_seq; [apply triple_filtering | apply starts_act].
    - eapply triple_seq; [apply triple_xlat; exact Hq | apply triple_send]. }
  specialize (T fresh). destruct (m fresh) as [[e v] x].
  destruct T as ([a1 a2 a3] & Hc); [repeat split; auto|].
  assert (Hb : before 1 x) by (destruct v; exact Hc). clear Hc.
  assert (Hx : forall t h, (second t = true -> h = mem t (owned x)) -> t <> Xlation 1 -> life t h (fst (dst_release x)) = Some (if second t then false else h)).
  { intros t h Hh Ht. destruct Hb as (Ho & [Hd|Hd]); unfold dst_release; rewrite Hd; cbn.
    - destruct (second t) eqn:E; [|reflexivity]. rewrite Hh by reflexivity. unfold owned. rewrite Ho, Hd. reflexivity.
    - destruct (thing_eqb t (Route 1 0)) eqn:E.
      + apply thing_eqb_eq in E. subst t. rewrite Hh by reflexivity. unfold owned. rewrite Ho, Hd. reflexivity.
      + destruct (second t) eqn:F; [|reflexivity]. rewrite Hh by reflexivity. unfold owned. rewrite Ho, Hd. unfold mem. cbn. rewrite E. reflexivity. }
  split.
  - intros t h Ht Hs. cbn [life]. destruct (thing_eqb t (Xlation 1)) eqn:E.
    + apply thing_eqb_eq in E. subst t. rewrite Hs by reflexivity.
      rewrite !life_app, a2; [| reflexivity | discriminate | discriminate].
      destruct Hb as (Ho & [Hd|Hd]); unfold xlation_destroy, dst_release; rewrite Hd; reflexivity.
    + unfold xlation_destroy. rewrite !life_app.
      assert (Ht1 : t <> Xlation 1) by (intro; subst t; discriminate).
      assert (Hl : life t h [Free (Xlation 1)] = Some h) by (cbn [life]; rewrite E; reflexivity).
      destruct (mine 1 t) eqn:F.
      * rewrite Hs by (unfold second; rewrite F; reflexivity). change false with (mem t (owned fresh)) at 1. rewrite a1 by exact F. cbv beta iota.
        rewrite life_app, Hx; [| reflexivity | exact Ht1]. cbv beta iota. unfold second. rewrite F. cbn [orb life]. rewrite E. reflexivity.
      * rewrite a2; [| exact F | exact Ht | discriminate]. cbv beta iota. rewrite life_app, Hx; [| unfold second; rewrite F, E; discriminate | exact Ht1].
        cbv beta iota. unfold second. rewrite F, E. exact Hl.
  - cbn [life thing_eqb]. unfold xlation_destroy. rewrite !life_app, a3. cbv beta iota.
    rewrite life_app, Hx; [reflexivity | discriminate | discriminate].
Qed.

Lemma triple_deliver c f q q2 : (forall q, q2 = Some q -> healthy_pass q) -> (q_hairpin q = true -> f = P6) ->
  triple 0 (fun x => done 0 (negb (q_hairpin q)) x /\ (q_hairpin q = true -> exists b r, x_out x = [(b, r)]))
    (deliver c f q q2) (before 0) (before 0).
Proof.
  intros Hq Hf x (Hx & Hone). unfold deliver. destruct (q_hairpin q).
  - destruct (Hone eq_refl) as (b & r & Hb). rewrite Hb. rewrite (Hf eq_refl). cbn [flip].
    pose proof (ok_hairpin c q2 Hq) as H. destruct (handling_hairpinning c P4 q2) as [e v]. destruct H as (h1 & h2).
    destruct Hx as (Hd & _ & Hn & Hm & _). rewrite Hb in Hn, Hm. cbn in Hn, Hm. rewrite app_nil_r in Hn, Hm. rewrite Forall_forall in Hm.
    split; [|destruct v; split; cbn; auto].
    assert (Hother : forall t, mine 0 t = true -> t <> Incoming /\ second t = false).
    { intros t Ht. split; [intro; subst t; discriminate|]. destruct t; try discriminate; destruct p; (reflexivity || discriminate). }
    split.
    + intros t Ht. destruct (Hother t Ht) as (n1 & n2). unfold owned. rewrite Hb, Hd. cbn [things flat_map fst snd x_out x_dst opt app]. rewrite !app_nil_r.
      destruct r as [r|]; cbn [opt] in *.
      * rewrite !mem_cons. cbn [app life]. inversion Hn as [|? ? Nb Nr]; subst. destruct (thing_eqb t r) eqn:Er.
        -- apply thing_eqb_eq in Er. subst r. rewrite orb_true_r. rewrite life_app, h1; [| exact n1 | rewrite n2; discriminate].
           cbn [life]. rewrite thing_eqb_neq; [reflexivity|]. intro; subst t. apply Nb. left. reflexivity.
        -- rewrite life_app, h1; [| exact n1 | rewrite n2; discriminate]. cbn [life]. unfold mem. cbn. destruct (thing_eqb t b); reflexivity.
      * cbn [app life]. rewrite life_app, h1; [| exact n1 | rewrite n2; discriminate]. cbn [life]. unfold mem. cbn. destruct (thing_eqb t b); reflexivity.
    + intros t h Ht Hi Hs. assert (nb : thing_eqb t b = false).
      { apply thing_eqb_neq. intro; subst t. rewrite (Hm b (or_introl eq_refl)) in Ht. discriminate. }
      destruct r as [r|].
      * assert (nr : thing_eqb t r = false).
        { apply thing_eqb_neq. intro; subst t. rewrite (Hm r (or_intror (or_introl eq_refl))) in Ht. discriminate. }
        cbn [app life]. rewrite nr, life_app, h1; [| exact Hi | exact Hs]. cbn [life]. now rewrite nb.
      * cbn [app life]. rewrite life_app, h1; [| exact Hi | exact Hs]. cbn [life]. now rewrite nb.
    + assert (nb : thing_eqb Incoming b = false).
      { apply thing_eqb_neq. intro E. pose proof (Hm b (or_introl eq_refl)) as K. rewrite <- E in K. discriminate. }
      destruct r as [r|].
      * assert (nr : thing_eqb Incoming r = false).
        { apply thing_eqb_neq. intro E. pose proof (Hm r (or_intror (or_introl eq_refl))) as K. rewrite <- E in K. discriminate. }
        cbn [app life]. rewrite nr, life_app, h2. cbn [life]. now rewrite nb.
      * cbn [app life]. rewrite life_app, h2. cbn [life]. now rewrite nb.
  - apply triple_send. exact Hx.
Qed.

Lemma xlat_single p q hp set : post (translating_the_packet p q P6 hp set) single.
Proof.
  intro x. unfold translating_the_packet, seq.
  assert (H : post (ttp64_alloc_skb p q hp set) single).
  { apply post_seq, post_reverting, post_seq. intro y. destruct (q_short q); [discriminate|]. intros _. now exists (Copy p 0), (x_dst y). }
  specialize (H x). destruct (ttp64_alloc_skb p q hp set x) as [[e v] x1]. destruct v; try discriminate. specialize (H eq_refl).
  assert (K : forall y, single y -> let '(_, v, y') := (act (q_l3 q) ;; (if q_l4 q then fix_ie p (fixes q) ;; act (q_l4xlat q) else act Go)) y in v = Continue -> single y').
  { intros y (b & r & Hy). unfold seq, act. destruct (q_l3 q); try discriminate. destruct (q_l4 q); [|intros _; now exists b, r].
    unfold fix_ie. rewrite Hy. destruct (fixes q); try discriminate.
    - destruct (q_l4xlat q); try discriminate. intros _. now exists b, r.
    - destruct r as [r|]; destruct (q_l4xlat q); try discriminate; intros _; cbn; eexists; eexists; reflexivity. }
  specialize (K x1 H). change (let '(_, v, x') := (let '(e', v, x) := reverting (act (q_l3 q) ;; (if q_l4 q then fix_ie p (fixes q) ;; act (q_l4xlat q) else act Go)) (kfree_skb_list_ q) x1 in (e ++ e', v, x)) in v = Continue -> single x').
  unfold reverting. destruct ((act (q_l3 q) ;; _) x1) as [[e1 v1] x2].
  destruct v1; [exact K | | |]; destruct (kfree_skb_list_ q x2); discriminate.
Qed.

Lemma triple_core c f q q2 : healthy_pass q -> (forall q, q2 = Some q -> healthy_pass q) -> (q_hairpin q = true -> f = P6) ->
  triple 0 (starts 0 f) (core_common c f q q2) (fun _ => False) (before 0).
Proof.
  intros H1 H2 Hf. unfold core_common. eapply triple_seq with (Mid := starts 0 f).
  { destruct (c_type c); [apply starts_act|]. eapply triple_seq; [apply starts_act|]. eapply triple_seq; [apply triple_filtering | apply starts_act]. }
  eapply triple_seq with (Mid := fun x => done 0 (negb (q_hairpin q)) x /\ (q_hairpin q = true -> exists b r, x_out x = [(b, r)])).
  { set (hp := match c_type c with SIIT => q_hairpin q | NAT64 => false end).
    assert (T := triple_xlat 0 q f hp (early c f q) H1). destruct f.
    - destruct (q_hairpin q); [discriminate (Hf eq_refl)|].
      eapply triple_weaken; [exact T| | |]; auto. intros x Hx. split; [exact Hx | discriminate].
    - eapply triple_weaken; [exact (triple_post _ _ _ _ _ _ T (xlat_single 0 q hp (early c P6 q)))| | |]; auto.
      intros x ((a & b & d & e & g) & Hs). split; [|intros _; exact Hs]. repeat split; auto.
      intro Hh. apply g. unfold hp. destruct (q_hairpin q); [discriminate|]. destruct (c_type c); reflexivity. }
  eapply triple_seq; [apply triple_deliver; assumption|].
  intros x Hx. split; [|exact Hx]. split; intros.
  - cbn [life]. rewrite thing_eqb_neq; [reflexivity|]. intro; subst t. discriminate.
  - cbn [life]. rewrite thing_eqb_neq by assumption. reflexivity.
  - reflexivity.
Qed.

Lemma triple_whole c f w : healthy w -> turns_from_6 f w ->
  triple 0 (starts 0 f) (validate_xlator c ;; act (w_init w) ;; core_common c f (w_pass w) (w_second w)) (fun _ => False) (before 0).
Proof.
  intros (H1 & H2) Hf. eapply triple_seq with (Mid := starts 0 f).
  { unfold validate_xlator. destruct (negb (c_enabled c)); [apply starts_act|].
    destruct (c_type c); [apply starts_act|]. destruct (negb (c_pool6 c)); apply starts_act. }
  eapply triple_seq; [apply starts_act|]. apply triple_core; [exact H1 | | exact Hf].
  intros q Hq. rewrite Hq in H2. exact H2.
Qed.

(** An error is about the incoming packet, which is there *)
Lemma life_error t h f d r v x : (t = Incoming -> h = true) -> life t h (send_icmp_error f d r v x) = Some h.
Proof.
  intro Hh. unfold send_icmp_error. destruct (x_icmp x) as [[e i]|]; [|reflexivity].
  assert (G : forall f' ty co i, life t h [Error f' Incoming ty co i] = Some h).
  { intros. cbn [life]. destruct (thing_eqb t Incoming) eqn:E; [|reflexivity]. apply thing_eqb_eq in E. rewrite Hh by exact E. reflexivity. }
  assert (K : forall s j, life t h s = Some h -> life t h (s ++ [Count j]) = Some h).
  { intros s j Hs. rewrite life_app, Hs. reflexivity. }
  destruct v; try reflexivity;
    (destruct f;
     [unfold icmp64_send4; destruct (negb d || negb r); [apply K; reflexivity | destruct e; cbv beta iota zeta; apply K; solve [apply G | reflexivity]]
     |unfold icmp64_send6; destruct (negb d); [apply K; reflexivity | destruct e; cbv beta iota zeta; apply K; solve [apply G | reflexivity]]]).
Qed.

(** A stolen packet has no error *)
Definition quiet (f : M) : Prop := forall x, x_icmp x = None -> let '(_, v, x') := f x in (v = Continue \/ v = Stolen) -> x_icmp x' = None.

Lemma quiet_seq f g : quiet f -> quiet g -> quiet (f ;; g).
Proof.
  intros Hf Hg x Hx. specialize (Hf x Hx). unfold seq. destruct (f x) as [[e v] x1].
  destruct v; try exact Hf. specialize (Hg x1 (Hf (or_introl eq_refl))). destruct (g x1) as [[e' v'] x2]. exact Hg.
Qed.

Lemma quiet_act s : quiet (act s).
Proof. intros x Hx. destruct s; cbn; intros [E|E]; try discriminate; exact Hx. Qed.

Lemma quiet_reverting f r : quiet f -> (forall x, x_icmp (snd (r x)) = x_icmp x) -> quiet (reverting f r).
Proof.
  intros Hf Hr x Hx. specialize (Hf x Hx). unfold reverting. destruct (f x) as [[e v] x1]. specialize (Hr x1).
  destruct v; [exact Hf | | |]; destruct (r x1) as [e' x2]; cbn in Hr; rewrite Hr; exact Hf.
Qed.

Lemma release_icmp x : x_icmp (snd (dst_release x)) = x_icmp x.
Proof. unfold dst_release. destruct (x_dst x); reflexivity. Qed.

Lemma quiet_slow p n short : forall i, quiet (allocate_slow p i n short).
Proof.
  induction n as [|n IH]; intros i x Hx; cbn [allocate_slow]; [intros _; exact Hx|].
  specialize (IH (S i) (Xl (x_icmp x) (x_dst x) (x_out x ++ [(Copy p i, None)])) Hx).
  destruct short as [[k torn]|]; [destruct (Nat.eqb k i); [destruct torn; intros _; exact Hx|]|];
    destruct (allocate_slow _ _ _ _ _) as [[e v] x1]; exact IH.
Qed.

Lemma quiet_predict64 p q hp set : quiet (predict_route64 p q hp set).
Proof.
  apply quiet_seq; [destruct set; apply quiet_act|]. intros x Hx. destruct (x_dst x); [intros _; exact Hx|]. revert x Hx.
  apply quiet_seq; [|apply quiet_reverting; [apply quiet_act | apply release_icmp]].
  intros x Hx. destruct hp; [intros _; exact Hx|]. destruct (q_found q); intros _; exact Hx.
Qed.

Lemma quiet_xlat p q f hp set : quiet (translating_the_packet p q f hp set).
Proof.
  apply quiet_seq.
  - destruct f.
    + apply quiet_seq; [apply quiet_act|]. apply quiet_seq.
      * apply quiet_seq; [intros x Hx; destruct (q_found q); intros _; exact Hx|]. apply quiet_reverting; [apply quiet_act | apply release_icmp].
      * apply quiet_seq; [apply quiet_reverting; [|apply release_icmp]; apply quiet_seq; [apply quiet_act|]|].
        -- destruct (more q); [|apply quiet_slow]. intros x Hx. unfold allocate_fast. destruct (q_short q); intros _; exact Hx.
        -- intros x Hx. unfold autofill_dst. destruct (x_out x) as [|[b r] l]; intros _; exact Hx.
    + apply quiet_seq; [apply quiet_predict64|]. apply quiet_reverting; [|apply release_icmp]. apply quiet_seq; [apply quiet_act|].
      intros x Hx. destruct (q_short q); intros _; exact Hx.
  - apply quiet_reverting; [|reflexivity]. apply quiet_seq; [apply quiet_act|]. destruct (q_l4 q); [|apply quiet_act].
    apply quiet_seq; [|apply quiet_act]. intros x Hx. unfold fix_ie. destruct (fixes q), (x_out x) as [|[b [r|]] l]; intros _; exact Hx.
Qed.

Lemma quiet_filtering p c f q : quiet (filtering c f p q).
Proof.
  apply quiet_seq; [destruct (early c f q); [apply quiet_predict64 | apply quiet_act]|].
  destruct (q_filter q); [apply quiet_act|]. intros x Hx _. exact Hx.
Qed.

Lemma quiet_core c f q q2 : quiet (core_common c f q q2).
Proof.
  apply quiet_seq.
  { destruct (c_type c); [apply quiet_act|]. repeat (apply quiet_seq; [apply quiet_act || apply quiet_filtering|]). apply quiet_act. }
  apply quiet_seq; [apply quiet_xlat|]. apply quiet_seq; [|intros x Hx _; exact Hx].
  intros x Hx. unfold deliver. destruct (q_hairpin q).
  - destruct (x_out x) as [|[b r] l]; [intros _; exact Hx|]. destruct (handling_hairpinning _ _ _). intros _. exact Hx.
  - unfold sendpkt_send. destruct (sendpkt_list q 0 (x_out x)). intros _. exact Hx.
Qed.

Lemma quiet_whole c f w : quiet (validate_xlator c ;; act (w_init w) ;; core_common c f (w_pass w) (w_second w)).
Proof.
  apply quiet_seq; [|apply quiet_seq; [apply quiet_act | apply quiet_core]].
  unfold validate_xlator. destruct (negb (c_enabled c)); [apply quiet_act|]. destruct (c_type c); [apply quiet_act|].
  destruct (negb (c_pool6 c)); apply quiet_act.
Qed.

Lemma hook_owned h c f w : healthy w -> turns_from_6 f w ->
  forall t, life t (thing_eqb t Incoming) (fst (hook_packet h c f w)) =
    Some (thing_eqb t Incoming && match snd (hook_packet h c f w) with Taken => false | _ => true end).
Proof.
  intros H Hf t. unfold hook_packet. destruct (w_mem w); cbn [negb]; [|cbn; destruct t; reflexivity].
  destruct (w_found w); cbn [negb].
  2: { cbn. destruct t; cbn; try reflexivity; destruct h; try reflexivity; destruct p; reflexivity. }
  unfold core. pose proof (triple_whole c f w H Hf fresh) as T. pose proof (quiet_whole c f w fresh eq_refl) as Q.
  destruct ((validate_xlator c ;; _) fresh) as [[e v] x]. destruct T as ([a1 a2 a3] & Hc); [repeat split; auto|].
  assert (Hb : before 0 x /\ v <> Continue) by (destruct v; [contradiction | | |]; (split; [exact Hc | discriminate])).
  destruct Hb as (Hb & Hv).
  assert (Herr : v = Stolen -> send_icmp_error f (w_dev w) (w_routed w) v x = []).
  { intros ->. unfold send_icmp_error. rewrite Q by auto. reflexivity. }
  cbn [fst snd]. cbn [app]. cbn [life]. 
  rewrite !life_app. cbn [life].
  assert (Hdst : forall hh, (mine 0 t = true -> hh = mem t (owned x)) -> t <> Xlation 0 -> life t hh (xlation_destroy 0 x) = Some (hh && negb (mine 0 t))).
  { intros hh Hh Ht. unfold xlation_destroy. rewrite life_app. destruct Hb as (Ho & [Hd|Hd]); unfold dst_release; rewrite Hd; cbn [fst life].
    - rewrite thing_eqb_neq by exact Ht. f_equal. destruct (mine 0 t) eqn:E; [|now rewrite andb_true_r].
      rewrite Hh by reflexivity. unfold owned. rewrite Ho, Hd. reflexivity.
    - destruct (thing_eqb t (Route 0 0)) eqn:E.
      + apply thing_eqb_eq in E. subst t. rewrite Hh by reflexivity. unfold owned. rewrite Ho, Hd. reflexivity.
      + rewrite thing_eqb_neq by exact Ht. f_equal. destruct (mine 0 t) eqn:F; [|now rewrite andb_true_r].
        rewrite Hh by reflexivity. unfold owned. rewrite Ho, Hd. unfold mem. cbn. rewrite E. reflexivity. }
  destruct (mine 0 t) eqn:Em.
  - assert (Hn : t <> Incoming /\ t <> Xlation 0 /\ t <> Instance) by (repeat split; intro; subst t; discriminate).
    destruct Hn as (n1 & n2 & n3). rewrite !(thing_eqb_neq t) by assumption.
    change false with (mem t (owned fresh)) at 1. rewrite a1 by exact Em. cbv beta iota. rewrite life_error by (intro; contradiction). cbv beta iota.
    rewrite Hdst; [| reflexivity | exact n2]. cbn. now rewrite andb_false_r.
  - destruct (thing_eqb t Incoming) eqn:Ei.
    + apply thing_eqb_eq in Ei. subst t. cbn [thing_eqb]. rewrite a3. cbn [andb].
      assert (K : life Incoming (negb (stolen v)) (send_icmp_error f (w_dev w) (w_routed w) v x) = Some (negb (stolen v))).
      { destruct v; try (apply life_error; reflexivity). rewrite (Herr eq_refl). reflexivity. }
      cbv beta iota. rewrite K. cbv beta iota. cbn [thing_eqb]. rewrite Hdst; [| discriminate | discriminate].
      destruct v; try contradiction; cbn; destruct h; reflexivity.
    + assert (n1 : t <> Incoming) by (intro; subst t; discriminate).
      cbn [andb]. destruct (thing_eqb t (Xlation 0)) eqn:Ex.
      * apply thing_eqb_eq in Ex. subst t. cbn [thing_eqb].
        rewrite a2; [| reflexivity | discriminate | discriminate]. cbv beta iota. rewrite life_error by discriminate. cbv beta iota.
        unfold xlation_destroy, dst_release. destruct Hb as (Ho & [Hd|Hd]); rewrite Hd; reflexivity.
      * destruct (thing_eqb t Instance) eqn:En.
        -- apply thing_eqb_eq in En. subst t. rewrite a2; [| reflexivity | discriminate | discriminate]. cbv beta iota. rewrite life_error by discriminate. cbv beta iota.
           rewrite Hdst; [reflexivity | discriminate | discriminate].
        -- rewrite a2; [| exact Em | exact n1 | reflexivity]. cbv beta iota. rewrite life_error by (intro; contradiction). cbv beta iota.
           rewrite Hdst; [reflexivity | discriminate | intro; subst t; discriminate].
Qed.
