(** Lemmas about the decisions on packets: the core does what the first refusal says. *)
Require Import Verif.Base Verif.Fate_Model Verif.Fate_Spec Verif.Fate_Proofs.

Lemma counted_app e e' : counted (e ++ e') = counted e ++ counted e'. Proof. apply flat_map_app. Qed.
Lemma sent_app e e' : sent (e ++ e') = sent e ++ sent e'. Proof. apply flat_map_app. Qed.
Lemma errors_app e e' : errors (e ++ e') = errors e ++ errors e'. Proof. apply flat_map_app. Qed.
Lemma kept_app e e' : kept (e ++ e') = kept e ++ kept e'. Proof. apply flat_map_app. Qed.

(** Events that nobody outside notices *)
Definition inner (e : list event) : Prop := counted e = [] /\ sent e = [] /\ errors e = [] /\ kept e = [].

Lemma inner_app e e' : inner e -> inner e' -> inner (e ++ e').
Proof. intros (a & b & c & d) (a' & b' & c' & d'). unfold inner. rewrite counted_app, sent_app, errors_app, kept_app, a, b, c, d, a', b', c', d'. repeat split. Qed.

Lemma inner_kfree b : inner (kfree_skb b).
Proof. unfold kfree_skb. destruct (snd b); repeat split. Qed.

Lemma inner_kfree_list l : inner (kfree_skb_list l).
Proof. induction l as [|b l IH]; [repeat split|]. apply inner_app; [apply inner_kfree | exact IH]. Qed.

Lemma inner_release x : inner (fst (dst_release x)).
Proof. unfold dst_release. destruct (x_dst x); repeat split. Qed.

Lemma inner_takes l : inner (map Take l).
Proof. induction l as [|b l IH]; [repeat split|]. exact IH. Qed.

Definition verdict_of (s : fstep) : verdict :=
  match s with
  | Plain Go => Continue
  | Plain (Untr _) | Plain (UntrIcmp _ _ _) => Untranslatable
  | Plain (Refuse _) | Plain (RefuseIcmp _ _ _) => Drop
  | Stored _ => Stolen
  end.
Definition icmp_after (s : fstep) (i : option (icmp_errcode * Z)) : option (icmp_errcode * Z) :=
  match s with Plain (UntrIcmp _ e n) | Plain (RefuseIcmp _ e n) => Some (e, n) | _ => i end.
Definition keeps (s : fstep) : list thing := match s with Stored _ => [Incoming] | _ => [] end.

Definition does (Pre : xl -> Prop) (f : M) (l : list fstep) (Post : xl -> Prop) : Prop :=
  forall x, Pre x -> let '(e, v, x') := f x in
  sent e = [] /\ errors e = [] /\
  match first_refusal l with
  | None => v = Continue /\ counted e = [] /\ kept e = [] /\ x_icmp x' = x_icmp x /\ Post x'
  | Some s => v = verdict_of s /\ counted e = [counter s] /\ kept e = keeps s /\ x_icmp x' = icmp_after s (x_icmp x)
  end.

Lemma first_refusal_app l l' : first_refusal (l ++ l') = match first_refusal l with Some s => Some s | None => first_refusal l' end.
Proof. induction l as [|s l IH]; [reflexivity|]. cbn. destruct (goes s); [exact IH | reflexivity]. Qed.

Lemma refusal_refuses l s : first_refusal l = Some s -> goes s = false.
Proof. induction l as [|a l IH]; [discriminate|]. cbn. destruct (goes a) eqn:E; [exact IH|]. now intros [= <-]. Qed.

Lemma does_seq Pre f l Mid g l' Post : does Pre f l Mid -> does Mid g l' Post -> does Pre (f ;; g) (l ++ l') Post.
Proof.
  intros Hf Hg x Hx. specialize (Hf x Hx). unfold seq. rewrite first_refusal_app. destruct (f x) as [[e v] x1].
  destruct Hf as (Hs & He & Hf). destruct (first_refusal l) as [s|] eqn:E.
  - destruct Hf as (-> & Hf). apply refusal_refuses in E. destruct s as [[]|]; try discriminate; cbn [verdict_of]; auto.
  - destruct Hf as (-> & Hc & Hk & Hi & Hp). specialize (Hg x1 Hp). destruct (g x1) as [[e' v'] x2]. destruct Hg as (Hs' & He' & Hg).
    rewrite sent_app, errors_app, Hs, He, Hs', He', counted_app, kept_app, Hc, Hk. split; [reflexivity|]. split; [reflexivity|].
    destruct (first_refusal l') as [s|]; destruct Hg as (a & b & c & d); cbn [app]; rewrite <- Hi; auto.
Qed.

Lemma does_act s (P : xl -> Prop) : (forall x i, P x -> P (Xl i (x_dst x) (x_out x))) -> does P (act s) [Plain s] P.
Proof.
  intros HP x Hx. destruct s; cbn; repeat split; auto.
Qed.

Lemma does_weaken (Pre Pre' : xl -> Prop) f l (Post Post' : xl -> Prop) : does Pre f l Post ->
  (forall x, Pre' x -> Pre x) -> (forall x, Post x -> Post' x) -> does Pre' f l Post'.
Proof.
  intros H H1 H2 x Hx. specialize (H x (H1 x Hx)). destruct (f x) as [[e v] x']. destruct H as (a & b & c).
  split; [exact a|]. split; [exact b|]. destruct (first_refusal l); [exact c|]. destruct c as (c1 & c2 & c3 & c4 & c5). auto 6.
Qed.

Lemma does_reverting Pre f r l Post : does Pre f l Post -> (forall x, inner (fst (r x)) /\ x_icmp (snd (r x)) = x_icmp x) ->
  does Pre (reverting f r) l Post.
Proof.
  intros H Hr x Hx. specialize (H x Hx). unfold reverting. destruct (f x) as [[e v] x1]. destruct H as (Hs & He & H).
  destruct (first_refusal l) as [s|] eqn:E.
  - apply refusal_refuses in E. destruct H as (-> & Hc & Hk & Hi). specialize (Hr x1). destruct (r x1) as [e' x2]. cbn [fst snd] in Hr.
    destruct Hr as ((a & b & c & d) & g).
    assert (G : sent (e ++ e') = [] /\ errors (e ++ e') = [] /\ verdict_of s = verdict_of s /\ counted (e ++ e') = [counter s] /\ kept (e ++ e') = keeps s /\
      x_icmp x2 = icmp_after s (x_icmp x)).
    { rewrite sent_app, errors_app, counted_app, kept_app, Hs, He, Hc, Hk, a, b, c, d, g, Hi, !app_nil_r. auto 8. }
    destruct s as [[]|]; try discriminate; exact G.
  - destruct H as (-> & H). auto.
Qed.

Lemma does_release Pre f l Post : does Pre f l Post -> does Pre (reverting f dst_release) l Post.
Proof. intro H. apply does_reverting; [exact H|]. intro x. split; [apply inner_release | apply release_icmp]. Qed.

(** States *)
Definition nodst (x : xl) : Prop := x_out x = [] /\ x_dst x = None.
Definition withdst (p : nat) (x : xl) : Prop := x_out x = [] /\ x_dst x = Some (Route p 0).

Lemma does_route p q : does nodst
  (fun x => if q_found q then ([Take (Route p 0)], Continue, Xl (x_icmp x) (Some (Route p 0)) (x_out x)) else ([Count FAILED_ROUTES], Untranslatable, x))
  [Plain (route_stage q)] (withdst p).
Proof. intros x (Ho & Hd). unfold route_stage. destruct (q_found q); cbn; repeat split; auto. Qed.

Lemma does_predict64_ p q (hp : bool) : does nodst (predict_route64_ p q hp)
  (map Plain ((if hp then [] else [route_stage q]) ++ [q_saddr q])) (fun x => if hp then nodst x else withdst p x).
Proof.
  unfold predict_route64_. rewrite map_app. destruct hp.
  - eapply does_seq with (Mid := nodst).
    + intros x Hx. cbn. repeat split; auto; apply Hx.
    + apply does_release, does_act. auto.
  - eapply does_seq; [apply does_route|]. apply does_release, does_act. auto.
Qed.

Lemma does_predict64 p q (hp : bool) : does nodst (predict_route64 p q hp false) (routing_stages P6 hp q) (fun x => if hp then nodst x else withdst p x).
Proof.
  unfold predict_route64, routing_stages. cbn [map].
  apply (does_seq _ _ [Plain (q_flow q)] nodst); [apply does_act; auto|].
  intros x Hx. destruct (x_dst x) eqn:E; [destruct Hx; congruence|]. now apply does_predict64_.
Qed.

(** What the translation of the packet is *)
Definition dressed (l : list (thing * thing)) : list (thing * option thing) := map (fun b => (fst b, Some (snd b))) l.
Definition copies (p : nat) (f : ipv) (q : pass) : list (thing * thing) :=
  (Copy p 0, Route p 0) :: match f with P6 => [] | P4 => map (fun i => (Copy p i, Route p i)) (List.seq 1 (more q)) end.

Definition has (p : nat) (hp : bool) (l : list (thing * thing)) (x : xl) : Prop :=
  x_dst x = None /\ if hp then length (x_out x) = 1%nat else x_out x = dressed l.

Lemma does_alloc64 p q (hp : bool) :
  does (fun x => if hp then nodst x else withdst p x)
    (reverting (act (q_size q) ;; (fun x =>
       match q_short q with
       | Some _ => ([Count J64_PSKB_COPY], Drop, x)
       | None => ([Take (Copy p 0)], Continue, Xl (x_icmp x) None [(Copy p 0, x_dst x)])
       end)) dst_release)
    (map Plain [q_size q; memory_stage P6 q]) (has p hp (copies p P6 q)).
Proof.
  apply does_release. apply (does_seq _ _ [Plain (q_size q)] (fun x => if hp then nodst x else withdst p x)).
  - apply does_act. destruct hp; auto.
  - intros x Hx. unfold memory_stage. destruct (q_short q) as [[k t]|]; cbn; repeat split; auto.
    destruct hp; [reflexivity|]. destruct Hx as (_ & ->). reflexivity.
Qed.

Lemma does_slow p short n : forall i, does (fun x => x_dst x = Some (Route p 0) /\ x_out x = chain p i) (allocate_slow p i n short)
  [Plain (match short with Some (k, _) => if Nat.leb i k && Nat.ltb k (i + n) then Refuse 6 else Go | None => Go end)]
  (fun x => x_dst x = Some (Route p 0) /\ x_out x = chain p (i + n)).
Proof.
  induction n as [|n IH]; intros i x (Hd & Ho).
  - cbn [allocate_slow]. replace (match short with Some (k, _) => _ | None => Go end) with Go.
    + cbn. rewrite Nat.add_0_r. repeat split; auto.
    + destruct short as [[k t]|]; [|reflexivity]. destruct (Nat.leb_spec i k), (Nat.ltb_spec k (i + 0)); try reflexivity. lia.
  - cbn [allocate_slow]. set (x' := Xl (x_icmp x) (x_dst x) (x_out x ++ [(Copy p i, None)])).
    assert (Hx' : x_dst x' = Some (Route p 0) /\ x_out x' = chain p (S i)) by (split; [exact Hd | rewrite chain_S, <- Ho; reflexivity]).
    specialize (IH (S i) x' Hx').
    assert (G : forall k t, short = Some (k, t) -> k = i -> forall y, (y = x \/ y = x') ->
      let e := kfree_skb_list (x_out y) ++ [Count ENOMEM] in
      sent e = [] /\ errors e = [] /\ counted e = [6] /\ kept e = []).
    { intros k t _ _ y _. destruct (inner_kfree_list (x_out y)) as (a & b & c & d).
      cbn zeta. rewrite sent_app, errors_app, counted_app, kept_app, a, b, c, d. repeat split. }
    destruct short as [[k t]|].
    + destruct (Nat.eqb_spec k i) as [->|Hne].
      * replace (Nat.leb i i && Nat.ltb i (i + S n)) with true by (symmetry; apply andb_true_iff; split; [apply Nat.leb_refl | apply Nat.ltb_lt; lia]).
        destruct t; cbn [first_refusal goes]; [destruct (G i true eq_refl eq_refl x' (or_intror eq_refl)) as (a & b & c & d) |
          destruct (G i false eq_refl eq_refl x (or_introl eq_refl)) as (a & b & c & d)].
        -- split; [exact a|]. split; [exact b|]. split; [reflexivity|]. split; [exact c|]. split; [exact d | reflexivity].
        -- split; [exact a|]. split; [exact b|]. split; [reflexivity|]. split; [exact c|]. split; [exact d | reflexivity].
      * replace (Nat.leb i k && Nat.ltb k (i + S n)) with (Nat.leb (S i) k && Nat.ltb k (S i + n)).
        -- destruct (allocate_slow p (S i) n (Some (k, t)) x') as [[e v] x2]. replace (i + S n)%nat with (S i + n)%nat by lia. exact IH.
        -- destruct (Nat.leb_spec i k), (Nat.leb_spec (S i) k), (Nat.ltb_spec k (i + S n)), (Nat.ltb_spec k (S i + n)); try reflexivity; lia.
    + destruct (allocate_slow p (S i) n None x') as [[e v] x2]. replace (i + S n)%nat with (S i + n)%nat by lia. exact IH.
Qed.

Lemma does_alloc46 p q hp : does nodst (ttp46_alloc_skb p q)
  (routing_stages P4 hp q ++ map Plain [q_size q; memory_stage P4 q]) (has p false (copies p P4 q)).
Proof.
  unfold ttp46_alloc_skb, routing_stages. cbn [map app].
  apply (does_seq _ _ [Plain (q_flow q)] nodst); [apply does_act; auto|].
  apply (does_seq _ _ [Plain (route_stage q); Plain (q_saddr q)] (withdst p)).
  { apply (does_seq _ _ [Plain (route_stage q)] (withdst p)); [apply does_route|]. apply does_release, does_act. auto. }
  rewrite <- (app_nil_r [Plain (q_size q); Plain (memory_stage P4 q)]).
  eapply does_seq.
  - apply does_release. apply (does_seq _ _ [Plain (q_size q)] (withdst p)); [apply does_act; auto|].
    assert (H : does (withdst p) (match more q with O => allocate_fast p (q_short q) | S _ => allocate_slow p 0 (S (more q)) (q_short q) end)
      [Plain (memory_stage P4 q)] (fun x => x_dst x = Some (Route p 0) /\ x_out x = chain p (S (more q)))); [|exact H].
    unfold memory_stage. fold (more q). destruct (more q) as [|m].
    + intros x (Ho & Hd). unfold allocate_fast. destruct (q_short q) as [[k t]|]; cbn; repeat split; auto.
    + pose proof (does_slow p (q_short q) (S (S m)) 0) as H.
      replace (match q_short q with Some (k, _) => if Nat.leb k (S m) then Refuse 6 else Go | None => Go end)
        with (match q_short q with Some (k, _) => if Nat.leb 0 k && Nat.ltb k (0 + S (S m)) then Refuse 6 else Go | None => Go end).
      * eapply does_weaken; [exact H | | auto]. intros x (a & b). split; [exact b | exact a].
      * destruct (q_short q) as [[k t]|]; [|reflexivity].
        destruct (Nat.leb_spec 0 k), (Nat.ltb_spec k (0 + S (S m))), (Nat.leb_spec k (S m)); try reflexivity; lia.
  - intros x (Hd & Ho). unfold autofill_dst. rewrite Ho, Hd.
    change (chain p (S (more q))) with ((Copy p 0, @None thing) :: map (fun k => (Copy p k, @None thing)) (List.seq 1 (more q))).
    cbv beta iota zeta. rewrite map_length, seq_length, map_fst_chain.
    destruct (inner_takes (map (fun i => Route p (S i)) (List.seq 0 (more q)))) as (a & b & c & d).
    split; [exact b|]. split; [exact c|]. cbn [first_refusal]. split; [reflexivity|]. split; [exact a|]. split; [exact d|]. split; [reflexivity|].
    split; [reflexivity|]. cbn [x_out]. unfold copies, dressed. cbn [map fst snd]. f_equal. clear.
    rewrite <- (seq_shift (more q) 0), !map_map. induction (List.seq 0 (more q)) as [|i l IH]; [reflexivity|]. cbn. f_equal. exact IH.
Qed.

Lemma does_fix p q hp l : l <> [] -> (fixes q <> NoFix -> tl l = []) -> does (has p hp l) (fix_ie p (fixes q)) [Plain (fix_stage q)]
  (has p hp (match fixes q with Fixed => (Rebuilt p, RebuiltRoute p) :: tl l | _ => l end)).
Proof.
  intros Hl Ht x (Hd & Hx). rewrite fix_single.
  2: { intro Hn. specialize (Ht Hn). destruct hp; [exact Hx|]. rewrite Hx. destruct l as [|? [|? ?]]; [contradiction | reflexivity | discriminate]. }
  unfold fix_list, fix_stage. replace (if q_error q then match q_fix q with NoFix | Fixed => Go | FixNoMem => Refuse 6 | FixTorn => Refuse 83 end else Go)
    with (match fixes q with NoFix | Fixed => Go | FixNoMem => Refuse 6 | FixTorn => Refuse 83 end) by (unfold fixes; destruct (q_error q); reflexivity).
  destruct (x_out x) as [|[b r] o] eqn:Ex.
  - exfalso. destruct hp; [discriminate|]. destruct l; [contradiction | discriminate].
  - destruct (fixes q); cbn; repeat split; auto; try (rewrite Ex; exact Hx); try (destruct r as [r|]; destruct (inner_kfree (b, Some r)) as (? & ? & ? & ?); cbn; reflexivity).
    destruct r as [r|].
    + cbn. repeat split; auto. destruct hp; [exact Hx|]. cbn. destruct l as [|[b' r'] l]; [discriminate|]. cbn in Hx. injection Hx as _ _ ->. reflexivity.
    + cbn. repeat split; auto. destruct hp; [exact Hx|]. cbn. destruct l as [|[b' r'] l]; [discriminate|]. discriminate.
Qed.

Lemma has_icmp p hp l : forall x i, has p hp l x -> has p hp l (Xl i (x_dst x) (x_out x)).
Proof. auto. Qed.

(** The translation after the allocation *)
Lemma does_headers p q f hp :
  does (has p hp (copies p f q))
    (reverting (act (q_l3 q) ;; (if q_l4 q then fix_ie p (fixes q) ;; act (q_l4xlat q) else act Go)) (kfree_skb_list_ q))
    (map Plain (q_l3 q :: (if q_l4 q then [fix_stage q; q_l4xlat q] else []))) (has p hp (parts p f q)).
Proof.
  apply does_reverting.
  2: { intro x. split; [|reflexivity]. unfold kfree_skb_list_. cbn. destruct (q_null q); [repeat split | apply inner_kfree_list]. }
  cbn [map]. apply (does_seq _ _ [Plain (q_l3 q)] (has p hp (copies p f q))); [apply does_act, has_icmp|].
  replace (parts p f q) with (if q_l4 q then match fixes q with Fixed => (Rebuilt p, RebuiltRoute p) :: tl (copies p f q) | _ => copies p f q end else copies p f q).
  2: { unfold parts, copies, fixes, more. destruct (q_error q), (q_l4 q), (q_fix q), f; reflexivity. }
  destruct (q_l4 q).
  - eapply (does_seq _ _ [Plain (fix_stage q)]); [apply does_fix; [discriminate|] | apply does_act, has_icmp].
    unfold fixes, copies, more. destruct (q_error q); [destruct f; reflexivity | contradiction].
  - intros x Hx. cbn. repeat split; auto; apply Hx.
Qed.

Lemma does_xlat p q ty f hp (turns : bool) :
  (ty = NAT64 -> f = P6 -> hp = false) -> (f = P6 -> ty = SIIT -> hp = turns) ->
  does (fun x => match ty, f with NAT64, P6 => if q_early q then withdst p x else nodst x | _, _ => nodst x end)
    (translating_the_packet p q f hp (match ty, f with NAT64, P6 => q_early q | _, _ => false end))
    (translation_stages ty f turns q)
    (has p (match f with P6 => hp | P4 => false end) (parts p f q)).
Proof.
  intros Hn Hs. unfold translating_the_packet, translation_stages.
  destruct f.
  - replace (match ty with SIIT => _ | NAT64 => _ end) with (routing_stages P4 turns q) by (destruct ty; reflexivity).
    change (map Plain ([q_size q; memory_stage P4 q; q_l3 q] ++ ?t)) with (map Plain [q_size q; memory_stage P4 q] ++ map Plain (q_l3 q :: t)).
    rewrite app_assoc. eapply does_seq; [|apply does_headers].
    eapply does_weaken; [apply does_alloc46 with (hp := turns) | | auto]. destruct ty; auto.
  - change (map Plain ([q_size q; memory_stage P6 q; q_l3 q] ++ ?t)) with (map Plain [q_size q; memory_stage P6 q] ++ map Plain (q_l3 q :: t)).
    rewrite app_assoc. eapply does_seq; [|apply does_headers].
    unfold ttp64_alloc_skb. eapply does_seq; [|apply does_alloc64].
    destruct ty.
    + rewrite <- (Hs eq_refl eq_refl). apply does_predict64.
    + rewrite (Hn eq_refl eq_refl). destruct (q_early q); [|apply does_predict64].
      intros x (Ho & Hd). unfold predict_route64, seq. cbn. rewrite Hd. cbn. repeat split; auto.
Qed.

Lemma does_filter s (P : xl -> Prop) : (forall x i, P x -> P (Xl i (x_dst x) (x_out x))) -> does P (filter s) [s] P.
Proof. intros HP. destruct s as [s|j]; [apply does_act, HP|]. intros x Hx. cbn. repeat split. Qed.

Lemma does_stateful p c f q : c_type c = NAT64 ->
  does nodst (filtering c f p q ;; act (q_tuple q)) (stateful_stages f q)
    (fun x => match f with P6 => if q_early q then withdst p x else nodst x | P4 => nodst x end).
Proof.
  intro Hc. unfold filtering, stateful_stages, early. rewrite Hc.
  set (S := fun x => match f with P6 => if q_early q then withdst p x else nodst x | P4 => nodst x end).
  assert (HS : forall x i, S x -> S (Xl i (x_dst x) (x_out x))) by (unfold S; destruct f; [auto | destruct (q_early q); auto]).
  change [q_filter q; Plain (q_tuple q)] with ([q_filter q] ++ [Plain (q_tuple q)]). rewrite app_assoc.
  eapply does_seq; [|apply does_act, HS]. eapply does_seq; [|apply does_filter, HS].
  unfold S. assert (G : does nodst (act Go) [] nodst) by (intros x Hx; cbn; repeat split; auto; apply Hx).
  destruct f; [exact G|]. destruct (q_early q); [|exact G]. apply (does_predict64 p q false).
Qed.

(** ** The whole way *)

Lemma seq_assoc f g h x : (f ;; g ;; h) x = ((f ;; g) ;; h) x.
Proof.
  unfold seq. destruct (f x) as [[e v] x1]. destruct v; try reflexivity.
  destruct (g x1) as [[e' v'] x2]. destruct v'; try reflexivity. destruct (h x2) as [[e'' v''] x3]. now rewrite app_assoc.
Qed.

Lemma seq_ext f g g' x : (forall x, g x = g' x) -> (f ;; g) x = (f ;; g') x.
Proof. intro H. unfold seq. destruct (f x) as [[e v] x1]. now rewrite H. Qed.

(** Up to the translated packet *)
Definition towards (c : conf) (f : ipv) (w : world) : M :=
  validate_xlator c ;; act (w_init w) ;;
  (match c_type c with
   | NAT64 => act (q_in (w_pass w)) ;; filtering c f 0 (w_pass w) ;; act (q_tuple (w_pass w))
   | SIIT => act Go
   end) ;;
  translating_the_packet 0 (w_pass w) f (match c_type c with SIIT => q_hairpin (w_pass w) | NAT64 => false end) (early c f (w_pass w)).

Definition from_there (c : conf) (f : ipv) (w : world) : M :=
  deliver c f (w_pass w) (w_second w) ;; (fun x => ([Free Incoming; Count SUCCESS], Stolen, x)).

Lemma whole_way c f w x :
  (validate_xlator c ;; act (w_init w) ;; core_common c f (w_pass w) (w_second w)) x = (towards c f w ;; from_there c f w) x.
Proof.
  unfold towards. rewrite <- seq_assoc. apply seq_ext. intro y. rewrite <- seq_assoc. apply seq_ext. intro z.
  unfold core_common, from_there. rewrite <- seq_assoc. reflexivity.
Qed.

Lemma does_towards c f w : does nodst (towards c f w) (stages c f w)
  (has 0 (match f, c_type c with P6, SIIT => q_hairpin (w_pass w) | _, _ => false end) (parts 0 f (w_pass w))).
Proof.
  unfold towards, stages.
  apply (does_seq _ _ [Plain (if c_enabled c then Go else Untr 7); Plain (match c_type c with NAT64 => if c_pool6 c then Go else Untr 8 | SIIT => Go end)] nodst).
  { intros x Hx. unfold validate_xlator. destruct (c_enabled c), (c_type c), (c_pool6 c); cbn; repeat split; auto; apply Hx. }
  apply (does_seq _ _ [Plain (w_init w)] nodst); [apply does_act; auto|].
  pose proof (does_xlat 0 (w_pass w) (c_type c) f (match c_type c with SIIT => q_hairpin (w_pass w) | NAT64 => false end) (q_hairpin (w_pass w))) as X.
  assert (X1 : c_type c = NAT64 -> f = P6 -> match c_type c with SIIT => q_hairpin (w_pass w) | NAT64 => false end = false) by now intros ->.
  assert (X2 : f = P6 -> c_type c = SIIT -> match c_type c with SIIT => q_hairpin (w_pass w) | NAT64 => false end = q_hairpin (w_pass w)) by now intros _ ->.
  specialize (X X1 X2). clear X1 X2. unfold early. pose proof (does_stateful 0 c f (w_pass w)) as F.
  destruct (c_type c).
  - destruct f; (eapply does_seq; [|exact X]); intros x Hx; cbn; repeat split; auto; apply Hx.
  - destruct f; (eapply does_seq; [|exact X]);
    apply (does_seq _ _ [Plain (q_in (w_pass w))] nodst); try (apply does_act; auto; fail); apply F; reflexivity.
Qed.

Lemma inner_destroy p x : inner (xlation_destroy p x).
Proof. apply inner_app; [apply inner_release | repeat split]. Qed.

(** The hooks add nothing but the counter of packets received and the errors. *)
Lemma hook_run h c f w : w_mem w = true -> w_found w = true ->
  let '(e, v, x) := (towards c f w ;; from_there c f w) fresh in
  let err := send_icmp_error f (w_dev w) (w_routed w) v x in
  counted (fst (hook_packet h c f w)) = (match f with P6 => 1 | P4 => 2 end) :: counted e ++ counted err /\
  sent (fst (hook_packet h c f w)) = sent e ++ sent err /\
  errors (fst (hook_packet h c f w)) = errors e ++ errors err /\
  kept (fst (hook_packet h c f w)) = kept e ++ kept err /\
  snd (hook_packet h c f w) = answer_of h v.
Proof.
  intros Hm Hf. unfold hook_packet, core. rewrite Hm, Hf, whole_way. cbn [negb].
  destruct ((towards c f w ;; from_there c f w) fresh) as [[e v] x]. cbn [fst snd].
  destruct (inner_destroy 0 x) as (a & b & d & g).
  set (err := send_icmp_error f (w_dev w) (w_routed w) v x). cbv zeta.
  rewrite !counted_app, !sent_app, !errors_app, !kept_app. cbn [counted sent errors kept flat_map app].
  fold (counted (e ++ err)) (sent (e ++ err)) (errors (e ++ err)) (kept (e ++ err)).
  rewrite a, b, d, g, !counted_app, !sent_app, !errors_app, !kept_app, !app_nil_r. destruct f; repeat split.
Qed.

Lemma error_refused f w s x : goes s = false -> x_icmp x = icmp_after s None ->
  let err := send_icmp_error f (w_dev w) (w_routed w) (verdict_of s) x in
  counted err = error_counters f w s /\ errors err = error_events f w s /\ sent err = [] /\ kept err = [].
Proof.
  intros Hs Hx. unfold send_icmp_error, error_counters, error_events. rewrite Hx.
  destruct s as [[| | | |j r i]|]; try discriminate; cbn [icmp_after verdict_of told]; try (repeat split; fail).
  unfold icmp64_send4, icmp64_send6, can_tell.
  destruct f, (w_dev w), (w_routed w), r; cbn; repeat split.
Qed.

Lemma error_none f d r v x : x_icmp x = None -> send_icmp_error f d r v x = [].
Proof. intro H. unfold send_icmp_error. now rewrite H. Qed.

Lemma answer_refused h s : goes s = false -> answer_of h (verdict_of s) = answer_to h s.
Proof. destruct s as [[]|], h; try discriminate; reflexivity. Qed.

Lemma hook_refused h c f w s : w_mem w = true -> w_found w = true -> first_refusal (stages c f w) = Some s ->
  counted (fst (hook_packet h c f w)) = (match f with P6 => 1 | P4 => 2 end) :: counter s :: error_counters f w s /\
  sent (fst (hook_packet h c f w)) = [] /\
  errors (fst (hook_packet h c f w)) = error_events f w s /\
  kept (fst (hook_packet h c f w)) = keeps s /\
  snd (hook_packet h c f w) = answer_to h s.
Proof.
  intros Hm Hf Hs. pose proof (hook_run h c f w Hm Hf) as R. pose proof (refusal_refuses _ _ Hs) as Hg.
  pose proof (does_towards c f w fresh (conj eq_refl eq_refl)) as D. rewrite Hs in D.
  unfold seq in R. destruct (towards c f w fresh) as [[e v] x]. destruct D as (De & Ds & -> & Dc & Dk & Dx).
  destruct (error_refused f w s x Hg Dx) as (E1 & E2 & E3 & E4). rewrite <- (answer_refused h s Hg).
  assert (G : verdict_of s <> Continue) by (destruct s as [[]|]; discriminate).
  destruct (verdict_of s); [contradiction| | |]; cbv zeta in *; rewrite E1, E2, E3, E4, De, Ds, Dc, Dk in R; rewrite !app_nil_r in R; exact R.
Qed.

Lemma send_dressed q l : forall i, let '(e, v) := sendpkt_list q i (dressed l) in
  errors e = [] /\ kept e = [] /\
  match first_lacking q i (length l) with
  | None => v = Continue /\ sent e = l /\ counted e = []
  | Some k => v = Drop /\ sent e = firstn (S (k - i)) l /\ counted e = [63]
  end.
Proof.
  induction l as [|[b r] l IH]; intro i; [repeat split|]. cbn [dressed map fst snd sendpkt_list length first_lacking].
  fold (dressed l). destruct (q_lacking q i).
  - destruct (inner_kfree_list (dressed l)) as (a & d & g & k). replace (i - i)%nat with 0%nat by lia.
    cbn [errors kept sent counted flat_map app]. fold (errors (kfree_skb_list (dressed l))) (kept (kfree_skb_list (dressed l)))
      (sent (kfree_skb_list (dressed l))) (counted (kfree_skb_list (dressed l))). rewrite a, d, g, k. repeat split.
  - specialize (IH (S i)). destruct (sendpkt_list q (S i) (dressed l)) as [e v]. destruct IH as (a & b' & IH).
    cbn [errors kept sent counted flat_map app]. fold (errors e) (kept e) (sent e) (counted e).
    split; [exact a|]. split; [exact b'|].
    destruct (first_lacking q (S i) (length l)) as [k|] eqn:E; destruct IH as (-> & -> & ->); repeat split.
    assert (Hk : (S i <= k)%nat).
    { clear -E. revert i E. generalize (length l) as n. induction n as [|n IH]; intros i E; [discriminate|]. cbn in E.
      destruct (q_lacking q (S i)); [injection E as <-; lia|]. apply IH in E. lia. }
    replace (k - i)%nat with (S (k - S i)) by lia. reflexivity.
Qed.

(** What sending yields: which packets, which counters, and whether it is a success *)
Definition delivered (l : list (thing * thing)) (q : pass) : list (thing * thing) * list Z * verdict :=
  match first_lacking q 0 (length l) with
  | None => (l, [], Continue)
  | Some k => (firstn (S k) l, [63], Drop)
  end.

Lemma send_has p l q x : has p false l x ->
  let '(e, v, x') := sendpkt_send q x in
  errors e = [] /\ kept e = [] /\ x_icmp x' = x_icmp x /\ delivered l q = (sent e, counted e, v).
Proof.
  intros (_ & Ho). unfold sendpkt_send. rewrite Ho. pose proof (send_dressed q l 0) as H.
  destruct (sendpkt_list q 0 (dressed l)) as [e v]. destruct H as (a & b & H). unfold delivered.
  split; [exact a|]. split; [exact b|]. split; [reflexivity|].
  destruct (first_lacking q 0 (length l)) as [k|]; [rewrite Nat.sub_0_r in H|]; destruct H as (-> & -> & ->); reflexivity.
Qed.

Lemma hook_sent h c f w : w_mem w = true -> w_found w = true -> first_refusal (stages c f w) = None -> q_hairpin (w_pass w) = false ->
  let lacking := first_lacking (w_pass w) 0 (length (parts 0 f (w_pass w))) in
  counted (fst (hook_packet h c f w)) = [match f with P6 => 1 | P4 => 2 end; match lacking with None => 3 | Some _ => 63 end] /\
  sent (fst (hook_packet h c f w)) = match lacking with None => parts 0 f (w_pass w) | Some k => firstn (S k) (parts 0 f (w_pass w)) end /\
  errors (fst (hook_packet h c f w)) = [] /\
  kept (fst (hook_packet h c f w)) = [] /\
  snd (hook_packet h c f w) = match lacking with None => Taken | Some _ => Dropped end.
Proof.
  intros Hm Hf Hs Hh. pose proof (hook_run h c f w Hm Hf) as R.
  pose proof (does_towards c f w fresh (conj eq_refl eq_refl)) as D. rewrite Hs, Hh in D.
  unfold seq at 1 in R. destruct (towards c f w fresh) as [[e v] x]. destruct D as (De & Ds & -> & Dc & Dk & Dx & Dp).
  assert (Dp' : has 0 false (parts 0 f (w_pass w)) x) by (destruct f, (c_type c); exact Dp). clear Dp.
  unfold from_there, seq, deliver in R. rewrite Hh in R. pose proof (send_has 0 _ (w_pass w) x Dp') as S.
  destruct (sendpkt_send (w_pass w) x) as [[e' v'] x']. destruct S as (S1 & S2 & S3 & S4). unfold delivered in S4. cbv zeta.
  assert (Hx : x_icmp x' = None) by now rewrite S3, Dx.
  destruct (first_lacking (w_pass w) 0 (length (parts 0 f (w_pass w)))) as [k|]; injection S4 as S4 S5 S6; subst v';
    cbv zeta in R; rewrite error_none in R by exact Hx;
    rewrite ?counted_app, ?sent_app, ?errors_app, ?kept_app, <- ?S4, <- ?S5, De, Ds, Dc, Dk, S1, S2 in R; cbn [app counted sent errors kept flat_map] in R; rewrite ?app_nil_r in R;
    destruct h; exact R.
Qed.

Lemma does_second c q : does nodst
  ((match c_type c with NAT64 => filtering c P4 1 q ;; act (q_tuple q) | SIIT => act Go end) ;; translating_the_packet 1 q P4 true (early c P4 q))
  (second_stages (c_type c) q) (has 1 false (parts 1 P4 q)).
Proof.
  unfold second_stages. pose proof (does_stateful 1 c P4 q) as F.
  pose proof (does_xlat 1 q (c_type c) P4 true true (fun _ H => ltac:(discriminate H)) (fun _ _ => eq_refl)) as X. unfold early.
  destruct (c_type c).
  - eapply does_seq; [|exact X]. intros x Hx. cbn. repeat split; auto; apply Hx.
  - eapply does_seq; [apply F; reflexivity | exact X].
Qed.

Lemma second_pass c q : 
  let '(e, v) := handling_hairpinning c P4 (Some q) in
  errors e = [] /\
  match first_refusal (second_stages (c_type c) q) with
  | Some s => v = verdict_of s /\ sent e = [] /\ counted e = [counter s] /\ kept e = keeps s
  | None => kept e = [] /\ delivered (parts 1 P4 q) q = (sent e, counted e, v)
  end.
Proof.
  unfold handling_hairpinning. rewrite seq_assoc. pose proof (does_second c q fresh (conj eq_refl eq_refl)) as D.
  set (m := _ ;; translating_the_packet 1 q P4 true (early c P4 q)) in *. unfold seq. destruct (m fresh) as [[e v] x].
  destruct D as (De & Ds & D).
  destruct (first_refusal (second_stages (c_type c) q)) as [s|] eqn:Es.
  - destruct D as (-> & Dc & Dk & Dx). pose proof (refusal_refuses _ _ Es) as Hg.
    assert (G : verdict_of s <> Continue) by (destruct s as [[]|]; discriminate).
    destruct (inner_destroy 1 x) as (a & b & d & g).
    destruct (verdict_of s); [contradiction| | |]; cbn [errors sent counted kept flat_map app];
      fold (errors (e ++ xlation_destroy 1 x)) (sent (e ++ xlation_destroy 1 x)) (counted (e ++ xlation_destroy 1 x)) (kept (e ++ xlation_destroy 1 x));
      rewrite errors_app, sent_app, counted_app, kept_app, De, Ds, Dc, Dk, a, b, d, g, !app_nil_r; repeat split.
  - destruct D as (-> & Dc & Dk & Dx & Dp). pose proof (send_has 1 _ q x Dp) as S.
    destruct (sendpkt_send q x) as [[e' v'] x']. destruct S as (S1 & S2 & S3 & S4). destruct (inner_destroy 1 x') as (a & b & d & g).
    cbn [errors sent counted kept flat_map app].
    fold (errors ((e ++ e') ++ xlation_destroy 1 x')) (sent ((e ++ e') ++ xlation_destroy 1 x')) (counted ((e ++ e') ++ xlation_destroy 1 x')) (kept ((e ++ e') ++ xlation_destroy 1 x')).
    rewrite !errors_app, !sent_app, !counted_app, !kept_app, De, Ds, Dc, Dk, a, b, d, g, S1, S2, S4, !app_nil_r. repeat split.
Qed.

Lemma inner_maybe_free (r : option thing) : inner (match r with Some r => [Free r] | None => [] end).
Proof. destruct r; repeat split. Qed.

Lemma hook_hairpin h c w : w_mem w = true -> w_found w = true -> first_refusal (stages c P6 w) = None -> q_hairpin (w_pass w) = true ->
  let out := hook_packet h c P6 w in
  errors (fst out) = [] /\
  match w_second w with
  | None => counted (fst out) = [1] /\ sent (fst out) = [] /\ kept (fst out) = [] /\ snd out = Dropped
  | Some q =>
    match first_refusal (second_stages (c_type c) q) with
    | Some s => counted (fst out) = [1; counter s] /\ sent (fst out) = [] /\ kept (fst out) = keeps s /\ snd out = answer_to h s
    | None =>
      let lacking := first_lacking q 0 (length (parts 1 P4 q)) in
      counted (fst out) = [1; match lacking with None => 3 | Some _ => 63 end] /\
      sent (fst out) = match lacking with None => parts 1 P4 q | Some k => firstn (S k) (parts 1 P4 q) end /\
      kept (fst out) = [] /\
      snd out = match lacking with None => Taken | Some _ => Dropped end
    end
  end.
Proof.
  intros Hm Hf Hs Hh. pose proof (hook_run h c P6 w Hm Hf) as R. cbv zeta.
  pose proof (does_towards c P6 w fresh (conj eq_refl eq_refl)) as D. rewrite Hs in D.
  unfold seq at 1 in R. destruct (towards c P6 w fresh) as [[e v] x]. destruct D as (De & Ds & -> & Dc & Dk & Dx & Dp).
  assert (Ho : exists b r o, x_out x = (b, r) :: o).
  { destruct Dp as (_ & Dp). destruct (x_out x) as [|[b r] o]; [|eauto]. exfalso.
    unfold parts in Dp. destruct (match c_type c with SIIT => q_hairpin (w_pass w) | NAT64 => false end), (q_error (w_pass w)); discriminate Dp. }
  destruct Ho as (b & r & o & Ho). unfold from_there, seq, deliver in R. rewrite Hh, Ho in R. cbn [flip] in R.
  destruct (inner_maybe_free r) as (i1 & i2 & i3 & i4).
  destruct (w_second w) as [q|].
  - pose proof (second_pass c q) as S. destruct (handling_hairpinning c P4 (Some q)) as [e' v']. destruct S as (S1 & S).
    destruct (first_refusal (second_stages (c_type c) q)) as [s|] eqn:Es.
    + destruct S as (-> & S2 & S3 & S4). pose proof (refusal_refuses _ _ Es) as Hg.
      assert (G : verdict_of s <> Continue) by (destruct s as [[]|]; discriminate). rewrite <- (answer_refused h s Hg).
      destruct (verdict_of s); [contradiction| | |];
      cbv zeta in R; rewrite error_none in R by exact Dx;
      rewrite ?counted_app, ?sent_app, ?errors_app, ?kept_app, De, Ds, Dc, Dk, S1, S2, S3, S4, i1, i2, i3, i4 in R;
      cbn [app counted sent errors kept flat_map] in R; rewrite ?app_nil_r in R; destruct R as (R1 & R2 & R3 & R4 & R5);
      rewrite R1, R2, R3, R4, R5; repeat split.
    + destruct S as (S2 & S). unfold delivered in S.
      destruct (first_lacking q 0 (length (parts 1 P4 q))) as [k|]; injection S as S3 S4 S5; subst v';
      cbv zeta in R; rewrite error_none in R by exact Dx;
      rewrite ?counted_app, ?sent_app, ?errors_app, ?kept_app, <- ?S3, <- ?S4, De, Ds, Dc, Dk, S1, S2, i1, i2, i3, i4 in R;
      cbn [app counted sent errors kept flat_map] in R; rewrite ?app_nil_r in R; destruct R as (R1 & R2 & R3 & R4 & R5);
      rewrite R1, R2, R3, R4, R5; destruct h; repeat split.
  - cbn [handling_hairpinning] in R. cbv zeta in R. rewrite error_none in R by exact Dx.
    rewrite ?counted_app, ?sent_app, ?errors_app, ?kept_app, De, Ds, Dc, Dk, i1, i2, i3, i4 in R.
    cbn [app counted sent errors kept flat_map] in R. destruct R as (R1 & R2 & R3 & R4 & R5). rewrite R1, R2, R3, R4, R5. destruct h; repeat split.
Qed.
