(** C84: the listings, from the client's function to the tables and back, on octets. *)
Require Import Verif.Base Verif.Addr_Model Verif.Addr_Spec Verif.Rtrie_Model Verif.Eam_Model Verif.Eam_Spec Verif.Nest_Spec Verif.Nest_Properties
  Verif.Paging Verif.Deny_Model Verif.Deny_Spec Verif.Deny_Proofs Verif.Deny_Properties
  Verif.Pool4_Model Verif.Pool4_Listing Verif.Fsm_Model Verif.Rbtree_Model Verif.Rbtree_Properties Verif.Bib_Model Verif.Bib_Inv Verif.Bib_Hist Verif.KeyPaging Verif.Bib_Listing Verif.Bib_Spec Verif.Bib_Properties Verif.Bib_Life
  Verif.Glob_Model Verif.Glob_Spec Verif.Inst_Model Verif.File_Model Verif.Nla_Model Verif.Nla_Spec Verif.Nla_Proofs Verif.Req_Model Verif.Req_Spec Verif.Req_Proofs Verif.Req_Properties
  Verif.Lst_Model Verif.Lst_Spec Verif.Lst_Proofs Verif.Lst_Pool4.
Require Verif.Glob_Properties.
From Coq Require Import Sorting.Sorted.
Local Ltac Zify.zify_post_hook ::= Z.div_mod_to_equations.

(** ** The octets are a listing *)

(** What the user is shown is what the tables have, as much as fits in a message at a time; whatever happens to the tables
    between one request and the next, whatever the order of octets of the machine and the version of Linux. *)
Theorem C84_listing : forall S I h (K : kernel S I) (T : tables S I) u w n l states, Req_Spec.normal K u w -> fit_name n -> fit_listing l ->
  fit_states K T (u_xt u) n l states ->
  foreach h K T u w true n l None states = Got (Lst_Spec.shown w (rest_in K T (u_xt u) n l) None states).
Proof. intros S I h K T u w n l states N Hn Hl Hf. apply (loop_ok h K T u w N n l Hn Hl states Hf); [apply incl_refl|constructor|exact Logic.I]. Qed.
Print Assumptions C84_listing.

(** Whatever octets the client is answered with: if it asks for more, or says that the listing is complete, all of the answer could be
    read, and was shown; if any of it cannot be read, the user is told that it made no sense. *)
Theorem C84_unreadable : forall h u l b items e, foreach_response h u l b = Got (items, e) -> e = None \/ e = Some Lst_Model.Complete ->
  Forall2 (fun a x => read_item h l a = Got x) (fst (attributes h (skipn 28 b))) (map Some items) \/
  (l = LGlobals /\ exists xs, Forall2 (fun a x => read_item h l a = Got x) (fst (attributes h (skipn 28 b))) xs /\
     items = flat_map (fun x => match x with Some x => [x] | None => [] end) xs).
Proof.
  intros h u l b items e R E. unfold foreach_response in R.
  destruct (zlen b <? 28); [injection R as <- <-; destruct E; discriminate|].
  destruct (negb (validate_joolnlhdr u b)); [injection R as <- <-; destruct E; discriminate|].
  destruct (bit_and (hdr_flags b) FLAGS_ERROR); [destruct (joolnl_msg2result h b); try discriminate R; injection R as <- <-; destruct E; discriminate|].
  destruct (match l with LGlobals => Got tt | _ => jnla_validate_list h (skipn 28 b) struct_list_policy end); [|injection R as <- <-; destruct E; discriminate|discriminate].
  destruct (read_items h l (fst (attributes h (skipn 28 b)))) as [[its ok]|?|] eqn:Q; try discriminate R. cbn [rbind fst snd] in R. injection R as <- <-.
  destruct ok; cbn [negb] in E; [|destruct E; discriminate]. clear E.
  assert (G : forall attrs its, read_items h l attrs = Got (its, true) -> exists xs, Forall2 (fun a x => read_item h l a = Got x) attrs xs /\
    its = flat_map (fun x => match x with Some x => [x] | None => [] end) xs).
  { clear. induction attrs as [|a attrs IH]; intros its Q.
    - injection Q as <-. exists []. split; [constructor|reflexivity].
    - cbn [read_items] in Q. destruct (read_item h l a) as [x|?|] eqn:X; try discriminate Q.
      destruct (read_items h l attrs) as [[its' ok]|?|] eqn:Q'; try discriminate Q. cbn [rbind fst snd] in Q. injection Q as <- ->.
      destruct (IH its' eq_refl) as (xs & F & ->). exists (x :: xs). split; [constructor; assumption|]. destruct x; reflexivity. }
  destruct (G _ _ Q) as (xs & F & ->).
  assert (L : l = LGlobals \/ Forall (fun x => x <> None) xs).
  { destruct l; try (left; reflexivity); right; clear -F; (induction F as [|a x attrs xs H F IH]; [constructor|]; constructor; [|exact IH]);
    intros ->; cbn in H; match goal with H : rbind ?r _ = _ |- _ => destruct r; discriminate H end. }
  destruct L as [-> | L]; [right; split; [reflexivity|]; exists xs; split; [exact F | reflexivity]|left].
  replace (map Some _) with xs; [exact F|]. clear -L. induction L as [|x xs H L IH]; [reflexivity|]. destruct x; [|contradiction]. cbn. f_equal. exact IH.
Qed.
Print Assumptions C84_unreadable.

(** A table that does not change, whose entries fit in a message, is shown whole, in at most one request more than it has entries. *)
Theorem C84_steady : forall S I h (K : kernel S I) (T : tables S I) u w n l states whole, Req_Spec.normal K u w -> fit_name n -> fit_listing l ->
  Forall (fit_item (u_xt u) l) whole -> steady (rest_in K T (u_xt u) n l) whole states ->
  Forall (fun x => item_size x <= a_cap w - 28) whole -> (length whole < length states)%nat ->
  foreach h K T u w true n l None states = Got (whole, Lst_Model.Complete).
Proof.
  intros S I h K T u w n l states whole N Hn Hl Hf Hs Hz Hc. rewrite C84_listing; auto.
  - f_equal. apply (shown_steady w _ whole Hz states [] None whole); auto.
    + intros s Hi. exact (proj1 (Hs s Hi)).
    + intros s Hi. exact (proj2 (Hs s Hi)).
  - intros s last r Hi M E.
    assert (X : forall last, may_say (rest_in K T (u_xt u) n l) states last -> forall s r, In s states -> rest_in K T (u_xt u) n l last s = inr r -> exists a, whole = a ++ r).
    { clear - Hs. intros last M. induction M as [|last s r x M IH Hi E Hx]; intros s0 r0 Hi0 E0.
      - rewrite (proj1 (Hs s0 Hi0)) in E0. injection E0 as <-. exists []. reflexivity.
      - destruct (IH s r Hi E) as (a & Ea). apply in_split in Hx. destruct Hx as (r1 & r2 & ->). rewrite app_assoc in Ea.
        rewrite (proj2 (Hs s0 Hi0) _ _ _ Ea) in E0. injection E0 as <-. exists ((a ++ r1) ++ [x]). rewrite <- app_assoc. exact Ea. }
    destruct (X last M s r Hi E) as (a & ->). apply Forall_app in Hf. tauto.
Qed.
Print Assumptions C84_steady.

(** ** The settings *)

Lemma ids_after : forall l a (x : Z) b, StronglySorted Z.lt l -> l = a ++ x :: b -> filter (fun i => x <? i) l = b.
Proof.
  intros l a x b Hs ->. induction a as [|y a IH]; cbn [app] in *; inversion Hs as [|? ? Hs' Hf]; subst; cbn [filter].
  - replace (x <? x) with false by lia. apply filter_all. intros z Hz. rewrite Forall_forall in Hf. specialize (Hf z Hz). lia.
  - rewrite Forall_forall in Hf. specialize (Hf x (in_elt x a b)). replace (x <? y) with false by lia. exact (IH Hs').
Qed.
Lemma ids_sorted : forall xt, StronglySorted Z.lt (setting_ids xt).
Proof. intros xt. unfold setting_ids. destruct (xt =? XT_SIIT); repeat constructor. Qed.
Lemma ids_positive : forall xt, filter (fun i => 0 <? i) (setting_ids xt) = setting_ids xt.
Proof. intros xt. unfold setting_ids. destruct (xt =? XT_SIIT); reflexivity. Qed.

Lemma setting_fits : forall xt id g, xt = XT_SIIT \/ xt = XT_NAT64 -> documented xt g -> wt_globals g -> In id (setting_ids xt) ->
  fit_item xt LGlobals (ISetting id (setting_value id g)) /\ item_size (ISetting id (setting_value id g)) <= 516.
Proof.
  intros xt id g Hx (Hc & Hs & Hn) (W1 & W2 & W3 & W4) Hi.
  assert (B : forall i, boolean (num g i) -> is_u8 (num g i) /\ (VU8 (num g i) = VU8 0 \/ VU8 (num g i) = VU8 1)).
  { intros i [->| ->]; split; auto; unfold is_u8; lia. }
  assert (P8 : fit_item xt LGlobals (ISetting 8 (setting_value 8 g)) /\ item_size (ISetting 8 (setting_value 8 g)) <= 516).
  { destruct (r_plateaus g Hc) as (E1 & _ & E2 & E3). fold (stored (plateaus g)). cbn [setting_value].
    change (firstn (Z.to_nat (count (plateaus g))) (values (plateaus g))) with (stored (plateaus g)).
    cbn [fit_item item_size]. unfold zlen. split; [|lia]. split; [|unfold boolean_setting; cbn [In]; lia]. split; [destruct Hx as [-> | ->]; reflexivity|].
    split; [reflexivity|]. split; [exact E1|]. split; [|unfold zlen; lia]. apply Forall_forall. intros x Hin. specialize (E2 x Hin). unfold is_u16. lia. }
  assert (P2 : fit_item xt LGlobals (ISetting 2 (setting_value 2 g)) /\ item_size (ISetting 2 (setting_value 2 g)) <= 516).
  { cbn [setting_value]. destruct (pool6 g) as [set [a l]] eqn:E. cbn [pre6] in W2. destruct set; cbn [fit_item item_size]; (split; [|lia]); (split; [|unfold boolean_setting; cbn [In]; lia]);
      (split; [destruct Hx as [-> | ->]; reflexivity|]); (split; [left; reflexivity|]); [left; exists l, a; auto|right; auto]. }
  unfold setting_ids in Hi. destruct Hx as [-> | ->]; cbn [Z.eqb XT_SIIT XT_NAT64 Pos.eqb] in Hi; cbn [In] in Hi.
  - specialize (Hs eq_refl).
    assert (P12 : fit_item XT_SIIT LGlobals (ISetting 12 (setting_value 12 g)) /\ item_size (ISetting 12 (setting_value 12 g)) <= 516).
    { cbn [setting_value]. destruct (p6791v6 g) as [set [a l]] eqn:E. cbn [pre6] in W3. destruct set; cbn [fit_item item_size]; (split; [|lia]); (split; [|unfold boolean_setting; cbn [In]; lia]);
        (split; [reflexivity|]); (split; [right; reflexivity|]); [left; exists l, a; auto|right; auto]. }
    assert (P13 : fit_item XT_SIIT LGlobals (ISetting 13 (setting_value 13 g)) /\ item_size (ISetting 13 (setting_value 13 g)) <= 516).
    { cbn [setting_value]. destruct (p6791v4 g) as [set [a l]] eqn:E. cbn [pre4] in W4. destruct set; cbn [fit_item item_size]; (split; [|lia]); (split; [|unfold boolean_setting; cbn [In]; lia]);
        (split; [reflexivity|]); (split; [reflexivity|]); [left; exists l, a; auto|right; auto]. }
    pose proof (r_mtu g Hc) as Q3. pose proof (r_tos g Hc) as Q7. pose proof (r_hairpin g Hs) as Q10.
    pose proof (fun i H => B i (r_bools g Hc i H)) as Q. pose proof (fun i H => B i (r_siit_bools g Hs i H)) as Q'.
    repeat (destruct Hi as [<-|Hi]); try contradiction; try assumption; cbn [setting_value fit_item item_size]; (split; [|lia]);
      (split; [split; [reflexivity|]|]); first [unfold is_u8, is_u32; unfold JNLAG_LOWEST_IPV6_MTU, JNLAG_TOS, JNLAG_HAIRPIN_MODE in *; lia
        | unfold boolean_setting; cbn [In]; lia | apply Q; cbn; tauto | intros _; apply Q; cbn; tauto | apply Q'; cbn; tauto | intros _; apply Q'; cbn; tauto ].
  - specialize (Hn eq_refl). pose proof (r_mtu g Hc) as Q3. pose proof (r_tos g Hc) as Q7. pose proof (r_f_args g Hn) as Q18. pose proof (r_udp g Hn) as Q20.
    pose proof (r_tcp_est g Hn) as Q22. pose proof (r_tcp_trans g Hn) as Q23.
    pose proof (fun i H => B i (r_bools g Hc i H)) as Q. pose proof (fun i H => B i (r_nat64_bools g Hn i H)) as Q'. pose proof (r_u32s g Hn) as Q4.
    repeat (destruct Hi as [<-|Hi]); try contradiction; try assumption; cbn [setting_value fit_item item_size]; (split; [|lia]);
      (split; [split; [reflexivity|]|]); first [apply Q4; cbn; tauto | unfold is_u8, is_u32; unfold JNLAG_LOWEST_IPV6_MTU, JNLAG_TOS, JNLAG_F_ARGS, JNLAG_TTL_UDP, JNLAG_TTL_TCP_EST, JNLAG_TTL_TCP_TRANS in *; lia
        | unfold boolean_setting; cbn [In]; lia | apply Q; cbn; tauto | intros _; apply Q; cbn; tauto | apply Q'; cbn; tauto | intros _; apply Q'; cbn; tauto ].
Qed.

(** "global display": every setting of the type of instance, with its value, in order. Any configuration that can be reached is as supposed here (C44). *)
Theorem C84_settings : forall S I h (K : kernel S I) (T : tables S I) u w n states g, Req_Spec.normal K u w -> fit_name n -> 544 <= a_cap w ->
  documented (u_xt u) g -> wt_globals g -> (forall s, In s states -> exists i, k_find K (name_of n) (u_xt u) s = inr i /\ k_globals K i s = g) ->
  (length (setting_ids (u_xt u)) < length states)%nat ->
  foreach h K T u w true n LGlobals None states = Got (map (fun id => ISetting id (setting_value id g)) (setting_ids (u_xt u)), Lst_Model.Complete).
Proof.
  intros S I h K T u w n states g N Hn Hc Hd Hw Hs Hl. pose proof (types K u w N) as Hx.
  assert (R : forall last s, In s states -> rest_in K T (u_xt u) n LGlobals last s = inr (settings_past (u_xt u) (match last with Some (ISetting id _) => id | _ => 0 end) g)).
  { intros last s Hi. destruct (Hs s Hi) as (i & Ei & Eg). unfold rest_in. replace (bit_and (u_xt u) (listed_of LGlobals)) with true by (destruct Hx as [-> | ->]; reflexivity).
    cbn [negb]. rewrite Ei. cbn [rest_of]. rewrite Eg. reflexivity. }
  apply C84_steady; auto.
  - exact Logic.I.
  - apply Forall_forall. intros x Hin. apply in_map_iff in Hin. destruct Hin as (id & <- & Hin). exact (proj1 (setting_fits _ _ g Hx Hd Hw Hin)).
  - intros s Hi. split; [rewrite R by exact Hi; unfold settings_past; rewrite ids_positive; reflexivity|].
    intros a x b E. rewrite R by exact Hi. apply map_eq_app in E. destruct E as (a' & l' & E & <- & E2). destruct l' as [|id b']; [discriminate E2|]. cbn [map] in E2. injection E2 as <- <-.
    unfold settings_past. rewrite (ids_after _ _ _ _ (ids_sorted _) E). reflexivity.
  - apply Forall_forall. intros x Hin. apply in_map_iff in Hin. destruct Hin as (id & <- & Hin). pose proof (proj2 (setting_fits _ _ g Hx Hd Hw Hin)). lia.
  - rewrite map_length. exact Hl.
Qed.
Print Assumptions C84_settings.

(** ** The EAMT, the denylist and pool4: what does not change is shown whole *)


(** [T] at the instance [i] and the state [s] does what the model of the database's function does, as much as there is room for. *)
Definition table_eamt {S I} (T : tables S I) (i : I) (s : S) (t : eamt) : Prop := forall off,
  t_eamt T i off s = match eamt_foreach t off with Ok (OK, l) => inr (map (fun e => (e_p6 e, e_p4 e)) l) | Ok (Err e, _) => inl e | _ => inl EPERM end.
Definition table_deny {S I} (T : tables S I) (i : I) (s : S) (l : list prefix4) : Prop := forall off rest,
  (forall cap, foreach_page prefix4_equals l cap off = (firstn cap rest, (cap <? length rest)%nat, None)) -> t_deny T i off s = inr rest.
(** A sample is an entry of pool4, whose iterations and flags are those of its mark. *)
Definition sampled (q : Z) (more : Z -> Z * Z) (x : Z * range) : entry :=
  EPool4 (fst x) (fst (more (fst x))) (snd (more (fst x))) q (P4 (r_addr (snd x)) (r_len (snd x))) (r_min (snd x), r_max (snd x)).
Definition table_pool4 {S I} (T : tables S I) (i : I) (s : S) (q : Z) (more : Z -> Z * Z) (tr : tree) : Prop := forall off rest,
  (forall cap, pool4db_foreach_sample tr cap off = (firstn cap rest, (cap <? length rest)%nat, None)) ->
  t_pool4 T i q (option_map (sampled q more) off) s = inr (map (sampled q more) rest).
(** The instance is there, and its table is that one, throughout. *)
Definition throughout {S I} (K : kernel S I) (n : option name) (xt : Z) (states : list S) (P : I -> S -> Prop) : Prop :=
  forall s, In s states -> exists i, k_find K (name_of n) xt s = inr i /\ P i s.

Section Steady.
Context {S I : Type} (h : host) (K : kernel S I) (T : tables S I) (u : client) (w : answering) (n : option name).
Lemma rest_there : forall l last s i, bit_and (u_xt u) (listed_of l) = true -> k_find K (name_of n) (u_xt u) s = inr i ->
  rest_in K T (u_xt u) n l last s = rest_of K T (u_xt u) l i last s.
Proof. intros l last s i B F. unfold rest_in. rewrite B, F. reflexivity. Qed.

(** The EAMT, after a history as in C05: what is shown is what should be there, in some order. *)
Theorem C84_eamt : forall states ops rs t, Req_Spec.normal K u w -> fit_name n -> u_xt u = XT_SIIT ->
  orderly_history [] ops -> eam_run eamt_alloc ops = Ok (rs, t) -> throughout K n (u_xt u) states (fun i s => table_eamt T i s t) ->
  exists tbl shown, espec_run [] ops rs tbl /\ Permutation shown tbl /\ ((length tbl < length states)%nat ->
    foreach h K T u w true n LEamt None states = Got (map (fun e => IEntry (EEam (e_p6 e) (e_p4 e))) shown, Lst_Model.Complete)).
Proof.
  intros states ops rs t N Hn Hx Ho Hr Ht.
  destruct (Nest_Eam.neam_run_ok ops eamt_alloc [] Nest_Eam.nalloc_inv Ho) as (rs' & t' & tbl & E & Sp & Inv).
  rewrite Hr in E. injection E as <- <-. pose proof Inv as (I6 & I4 & Ic & Ig & Id).
  destruct (Nest_Steps.nforeach_ok _ _ I4) as (l & El & Pl).
  assert (P : Permutation l tbl) by (rewrite Pl; unfold Eam_Proofs.tab; rewrite map_map; cbn [snd]; rewrite map_id; reflexivity).
  exists tbl, l. split; [exact Sp|]. split; [exact P|]. intros L.
  assert (W : Forall wt_eam l).
  { apply Forall_forall. intros e He. rewrite Forall_forall in Ig. apply Ig. exact (Permutation_in _ P He). }
  apply C84_steady; auto.
  - exact Logic.I.
  - apply Forall_forall. intros x X. apply in_map_iff in X. destruct X as (e & <- & He). rewrite Forall_forall in W. split; [reflexivity|exact (W e He)].
  - intros s Hi. destruct (Ht s Hi) as (i & Fi & Ti). split.
    + rewrite (rest_there _ _ _ i) by (exact Fi || (rewrite Hx; reflexivity)). cbn [rest_of]. rewrite Ti. unfold eamt_foreach at 1. cbn [option_map]. rewrite El. cbn [plain]. rewrite map_map. reflexivity.
    + intros a x b E. apply map_eq_app in E. destruct E as (l1 & l2 & E & <- & E2). destruct l2 as [|e l2]; [discriminate E2|]. cbn [map] in E2. injection E2 as <- <-.
      rewrite (rest_there _ _ _ i) by (exact Fi || (rewrite Hx; reflexivity)). cbn [rest_of]. rewrite Ti.
      rewrite (C73_listing_resumes_partial ops rs t l1 e l2 Ho Hr) by (rewrite <- E; exact El). cbn [plain]. rewrite map_map. reflexivity.
  - apply Forall_forall. intros x X. apply in_map_iff in X. destruct X as (e & <- & He). cbn [item_size entry_size]. destruct (n_room _ _ _ N). lia.
  - rewrite map_length, (Permutation_length P). exact L.
Qed.

(** The denylist, if it has no prefix twice *)
Theorem C84_denylist_partial : forall states l, Req_Spec.normal K u w -> fit_name n -> u_xt u = XT_SIIT ->
  Forall wt_prefix4 l -> NoDup l -> throughout K n (u_xt u) states (fun i s => table_deny T i s l) -> (length l < length states)%nat ->
  foreach h K T u w true n LDeny None states = Got (map (fun p => IEntry (EDeny p)) l, Lst_Model.Complete).
Proof.
  intros states l N Hn Hx Hw Hd Ht L. apply C84_steady; auto.
  - exact Logic.I.
  - apply Forall_forall. intros x X. apply in_map_iff in X. destruct X as (p & <- & Hp). rewrite Forall_forall in Hw. split; [reflexivity|exact (Hw p Hp)].
  - intros s Hi. destruct (Ht s Hi) as (i & Fi & Ti). split.
    + rewrite (rest_there _ _ _ i) by (exact Fi || (rewrite Hx; reflexivity)). cbn [rest_of]. rewrite (Ti None l) by (intros cap; apply foreach_page_none). reflexivity.
    + intros a x b E. apply map_eq_app in E. destruct E as (l1 & l2 & E & <- & E2). destruct l2 as [|p l2]; [discriminate E2|]. cbn [map] in E2. injection E2 as <- <-.
      rewrite (rest_there _ _ _ i) by (exact Fi || (rewrite Hx; reflexivity)). cbn [rest_of]. rewrite (Ti (Some p) l2); [reflexivity|]. intros cap. rewrite E.
      rewrite (foreach_page_skip prefix4_equals prefix4_eqb); [apply foreach_page_none|]. rewrite E in Hd. apply NoDup_remove_2 in Hd. intros C. apply Hd. apply in_or_app. left. exact C.
  - apply Forall_forall. intros x X. apply in_map_iff in X. destruct X as (e & <- & He). cbn [item_size entry_size]. destruct (n_room _ _ _ N). lia.
  - rewrite map_length. exact L.
Qed.

(** pool4, after any history: for each mark the ranges shown are disjoint, and together they hold exactly what was added and not removed. *)
Theorem C84_pool4 : forall states ops log p pr t q more, Req_Spec.normal K u w -> fit_name n -> u_xt u = XT_NAT64 -> is_u8 q ->
  Forall Pool4_Spec.wt_op ops -> Pool4_Model.run pool4db_alloc [] ops = Ok (log, p) -> Pool4_Spec.no_enomem log -> get_trees p pr = Some t ->
  (forall m, is_u32 (fst (more m)) /\ is_u8 (snd (more m))) -> Forall (fun x => is_u32 (fst x) /\ is_u32 (r_addr (snd x)) /\ is_u16 (r_min (snd x)) /\ is_u16 (r_max (snd x))) (samples (tmark t)) ->
  throughout K n (u_xt u) states (fun i s => table_pool4 T i s q more (tmark t)) ->
  exists shown, ((length shown < length states)%nat -> foreach h K T u w true n (LPool4 q) None states = Got (map (fun x => IEntry (sampled q more x)) shown, Lst_Model.Complete)) /\
    NoDup shown /\ (forall m a x, Pool4_Spec.held log pr m a x <-> exists r, In (m, r) shown /\ r_addr r = a /\ r_len r = 32 /\ r_min r <= x <= r_max r) /\
    (forall m r1 r2 x, In (m, r1) shown -> In (m, r2) shown -> r_addr r1 = r_addr r2 -> r_min r1 <= x <= r_max r1 -> r_min r2 <= x <= r_max r2 -> r1 = r2).
Proof.
  intros states ops log p pr t q more N Hn Hx Hq Hw Hr Hm Hg Hmore Hfit Ht.
  destruct (samples_exact ops log p pr t Hw Hr Hm Hg) as (OK4 & Nd & C1 & C2 & C3). set (l := samples (tmark t)) in *.
  exists l. split; [|auto]. intros L.
  assert (Fit : forall x, In x l -> fit_entry (sampled q more x)).
  { intros (m, r) X. rewrite Forall_forall in Hfit, C3. destruct (Hfit _ X) as (F1 & F2 & F3 & F4). specialize (C3 _ X). cbn [fst snd] in *. destruct (Hmore m) as [M1 M2].
    unfold sampled, fit_entry, wt_prefix4. cbn [fst snd p4_addr p4_len]. rewrite C3. repeat split; auto; try apply F1; try apply F2; try apply F3; try apply F4; try apply M1; try apply M2; try apply Hq; unfold is_u8; lia. }
  assert (Inj : forall x y, In x l -> In y l -> sampled q more x = sampled q more y -> x = y).
  { intros (m, [a ln lo hi]) (m', [a' ln' lo' hi']) _ _ E. unfold sampled in E. cbn in E. injection E as -> _ _ -> -> -> ->. reflexivity. }
  rewrite <- map_map. apply C84_steady; auto.
  - apply Forall_forall. intros x X. apply in_map_iff in X. destruct X as (e & <- & X). apply in_map_iff in X. destruct X as (y & <- & X). split; [exact (Fit y X)|reflexivity].
  - intros s Hi. destruct (Ht s Hi) as (i & Fi & Ti). split.
    + rewrite (rest_there _ _ _ i) by (exact Fi || (rewrite Hx; reflexivity)). cbn [rest_of]. pose proof (Ti None l (fun cap => eq_refl)) as X. cbn [option_map] in X. rewrite X. reflexivity.
    + intros a x b E. apply map_eq_app in E. destruct E as (l1 & l2 & E & <- & E2). destruct l2 as [|e l2]; [discriminate E2|]. cbn [map] in E2. injection E2 as <- <-.
      apply map_eq_app in E. destruct E as (k1 & k2 & E & <- & E2). destruct k2 as [|y k2]; [discriminate E2|]. cbn [map] in E2. injection E2 as <- <-.
      rewrite (rest_there _ _ _ i) by (exact Fi || (rewrite Hx; reflexivity)). cbn [rest_of].
      pose proof (Ti (Some y) k2 (fun cap => samples_resume _ k1 y k2 cap OK4 E)) as X. cbn [option_map] in X. rewrite X. reflexivity.
  - apply Forall_forall. intros x X. apply in_map_iff in X. destruct X as (e & <- & X). apply in_map_iff in X. destruct X as (y & <- & X). cbn [item_size entry_size sampled]. destruct (n_room _ _ _ N). lia.
  - rewrite !map_length. exact L.
Qed.
End Steady.
Print Assumptions C84_eamt.
Print Assumptions C84_denylist_partial.
Print Assumptions C84_pool4.

(** ** The BIB and the sessions: also what changes meanwhile *)

Lemma fits_uniform : forall z l room, 0 < z -> Forall (fun x => item_size x = z) l -> fits room l = Nat.min (Z.to_nat (room / z)) (length l).
Proof.
  intros z l. induction l as [|x l IH]; intros room Hz H; cbn [fits length]; [lia|]. inversion H as [|? ? Hx Hl]; subst. destruct (item_size x <=? room) eqn:E.
  - rewrite (IH (room - item_size x) Hz Hl). assert (D : room / item_size x = (room - item_size x) / item_size x + 1) by (replace room with ((room - item_size x) + 1 * item_size x) at 1 by ring; rewrite Z.div_add by lia; reflexivity). rewrite D.
    assert (0 <= (room - item_size x) / item_size x) by (apply Z.div_pos; lia). rewrite Z2Nat.inj_add by lia. change (Z.to_nat 1) with 1%nat. lia.
  - replace (Z.to_nat (room / item_size x)) with 0%nat; [lia|]. assert (room / item_size x < 1) by (apply Z.div_lt_upper_bound; lia). lia.
Qed.

Section Keys.
Context {S Kt : Type} (key : item -> Kt) (lt : Kt -> Kt -> Prop) (ltb : Kt -> Kt -> bool) (z : Z) (rows : S -> list item).
Context (ltb_spec : forall a b, ltb a b = true <-> lt a b) (lt_trans : forall a b c, lt a b -> lt b c -> lt a c).

Lemma shown_pages : forall w (rest : option item -> S -> errno + list item) states last,
  (forall s x, In s states -> In x (rows s) -> item_size x = z) -> 0 < z ->
  (forall s, In s states -> rest last s = inr (filter (beyond key ltb (option_map key last)) (rows s))) ->
  (forall s s' x, In s states -> In s' states -> In x (rows s) -> rest (Some x) s' = inr (filter (beyond key ltb (Some (key x))) (rows s'))) ->
  Lst_Spec.shown w rest last states =
    match request_all key (map (fun r off => key_page key ltb (fst r) off (snd r)) (map (fun s => (rows s, Z.to_nat ((a_cap w - 28) / z))) states)) (option_map key last) with
    | KeyPaging.Complete l => (l, Lst_Model.Complete)
    | KeyPaging.Failed l => (l, Lst_Model.Failed (told w (Err EINVAL)))
    | Unfinished l => (l, Pending)
    end.
Proof.
  intros w rest states. induction states as [|s states IH]; intros last U Hz R Q; [reflexivity|]. cbn [map]. cbn [Lst_Spec.shown request_all fst snd].
  rewrite R by (left; reflexivity). cbv zeta. unfold key_page at 1. set (r := filter _ (rows s)).
  assert (Ur : Forall (fun x => item_size x = z) r).
  { apply Forall_forall. intros x X. apply filter_In in X. apply (U s); [left; reflexivity|apply X]. }
  rewrite (fits_uniform z r (a_cap w - 28) Hz Ur). set (c := Z.to_nat ((a_cap w - 28) / z)).
  destruct (c <? length r)%nat eqn:E.
  - apply Nat.ltb_lt in E. rewrite Nat.min_l by lia. replace (length r <=? c)%nat with false by (symmetry; apply Nat.leb_gt; lia).
    assert (Inr : forall x, In x (firstn c r) -> In x (rows s)) by (intros x X; apply in_firstn in X; apply filter_In in X; apply X).
    destruct (firstn c r) as [|x p]; [reflexivity|]. destruct (last_snoc p x) as (q & Eq). rewrite Eq at 1. rewrite rev_app_distr. cbn [rev app].
    assert (X : In (List.last p x) (rows s)) by (apply Inr; rewrite Eq; apply in_or_app; right; left; reflexivity).
    rewrite (IH (Some (List.last p x))); [|intros; eapply U; [right; eassumption|eassumption]|exact Hz| |].
    + cbn [option_map]. destruct (request_all _ _ _); reflexivity.
    + intros s' Hi. cbn [option_map]. apply (Q s); [left; reflexivity|right; exact Hi|exact X].
    + intros s1 s2 y H1 H2 H3. apply (Q s1); [right; exact H1|right; exact H2|exact H3].
  - apply Nat.ltb_ge in E. rewrite Nat.min_r by lia. rewrite Nat.leb_refl. rewrite firstn_all2 by lia. reflexivity.
Qed.

Lemma keys_sound : forall w states, (forall s, In s states -> ascending key lt (rows s)) -> 0 < z <= a_cap w - 28 ->
  match request_all key (map (fun r off => key_page key ltb (fst r) off (snd r)) (map (fun s => (rows s, Z.to_nat ((a_cap w - 28) / z))) states)) None with
  | KeyPaging.Failed _ => False
  | Unfinished out => (length states <= length out)%nat
  | KeyPaging.Complete out => ascending key lt out /\ (forall x, In x out -> exists s, In s states /\ In x (rows s)) /\
      (forall k, (forall s, In s states -> exists x, In x (rows s) /\ key x = k) -> exists x, In x out /\ key x = k)
  end.
Proof.
  intros w states A Z1.
  pose proof (request_all_keys key lt ltb ltb_spec lt_trans (map (fun s => (rows s, Z.to_nat ((a_cap w - 28) / z))) states) None) as H.
  assert (In2 : forall r, In r (map (fun s => (rows s, Z.to_nat ((a_cap w - 28) / z))) states) <-> exists s, In s states /\ r = (rows s, Z.to_nat ((a_cap w - 28) / z))).
  { intros r. rewrite in_map_iff. split; intros (s & H1 & H2); exists s; auto. }
  assert (H1 : Forall (fun r => ascending key lt (fst r)) (map (fun s => (rows s, Z.to_nat ((a_cap w - 28) / z))) states)).
  { apply Forall_forall. intros r Hr. apply In2 in Hr. destruct Hr as (s & Hs & ->). exact (A s Hs). }
  assert (H2 : Forall (fun r => (1 <= snd r)%nat) (map (fun s => (rows s, Z.to_nat ((a_cap w - 28) / z))) states)).
  { apply Forall_forall. intros r Hr. apply In2 in Hr. destruct Hr as (s & Hs & ->). cbn [snd]. assert (1 <= (a_cap w - 28) / z) by (apply Z.div_le_lower_bound; lia). lia. }
  specialize (H H1 H2). destruct (request_all _ _ None) as [out|out|out]; [|contradiction|].
  - destruct H as (B1 & B2 & B3). split; [exact B1|]. split.
    + intros x X. destruct (B2 x X) as (_ & r & Hr & Hx). apply In2 in Hr. destruct Hr as (s & Hs & ->). exists s. auto.
    + intros k Hk. apply B3; [|exact Logic.I]. intros r Hr. apply In2 in Hr. destruct Hr as (s & Hs & ->). exact (Hk s Hs).
  - destruct H as (_ & _ & B). rewrite map_length in B. exact B.
Qed.
End Keys.

(** The BIB's functions, as above *)
Definition bib_entry (q : Z) (r : row) : entry := EBib (fst (fst r)) (snd (fst r)) q (snd r).
Definition table_bib {S I} (T : tables S I) (i : I) (s : S) (q : Z) (t : tb) : Prop := forall off rows,
  (forall cap, bib_foreach t off cap = Ok (firstn cap rows, (cap <? length rows)%nat)) -> t_bib T i q off s = inr (map (bib_entry q) rows).
(** What is told of a session besides its addresses depends on the time. *)
Definition table_session {S I} (T : tables S I) (i : I) (s : S) (q : Z) (more : sentry -> Z * Z * Z) (c : cfg) (p : proto) (t : tb) : Prop := forall off rows,
  (forall cap, bib_foreach_session c p t off false cap = Ok (firstn cap rows, (cap <? length rows)%nat)) ->
  t_session T i q off s = inr (map (fun e => (US (e_src6 e) (e_dst6 e) (e_src4 e) (e_dst4 e) q (fst (fst (more e))) (snd (fst (more e))), snd (more e))) rows).

Definition addr4_of (x : item) : ta := match x with IEntry (EBib _ a4 _ _) => a4 | _ => (0, 0) end.
Definition addrs4_of (x : item) : ta * ta := match x with ISession s => (us_src4 s, us_dst4 s) | _ => ((0, 0), (0, 0)) end.


(** Entries may come and go between one request and the next, and the one to resume from may be gone. Whatever is shown was there, in order and once; what was
    there all along is shown; and if the listing is not over, each request has shown something new. It does not fail. *)
Theorem C84_bib : forall S I h (K : kernel S I) (T : tables S I) u w n states q p (table : S -> tb), Req_Spec.normal K u w -> fit_name n -> u_xt u = XT_NAT64 -> is_u8 q ->
  (forall s, In s states -> reachable p (table s)) -> throughout K n (u_xt u) states (fun i s => table_bib T i s q (table s)) ->
  (forall s s6 s4 st, In s states -> has (table s) s6 s4 st -> fit_taddr6 s6 /\ fit_taddr4 s4) ->
  exists out e, foreach h K T u w true n (LBib q) None states = Got (out, e) /\
    match e with
    | Lst_Model.Failed _ => False
    | Pending => (length states <= length out)%nat
    | Lst_Model.Complete => StronglySorted (fun x y => lt_ta (addr4_of x) (addr4_of y)) out /\
        (forall x, In x out -> exists s s6 s4 st, x = IEntry (EBib s6 s4 q st) /\ In s states /\ has (table s) s6 s4 st) /\
        (forall s6 s4 st, (forall s, In s states -> has (table s) s6 s4 st) -> states <> [] -> In (IEntry (EBib s6 s4 q st)) out)
    end.
Proof.
  intros S I h K T u w n states q p table N Hn Hx Hq Hr Ht Hf.
  set (rows := fun s => map (fun r => IEntry (bib_entry q r)) (bib_rows (table s))).
  assert (Iv : forall s, In s states -> inv [] (table s)) by (intros s Hi; exact (proj1 (reach_inv p _ (Hr s Hi)))).
  assert (Hh : forall s, In s states -> forall x, In x (rows s) <-> exists s6 s4 st, x = IEntry (EBib s6 s4 q st) /\ has (table s) s6 s4 st).
  { intros s Hi x. unfold rows. rewrite in_map_iff. split.
    - intros (((s6, s4), st) & <- & X). apply (bib_rows_in _ (Iv s Hi)) in X. destruct X as (i & b & Hb & E). injection E as -> -> ->. exists (b_src6 b), (b_src4 b), (b_static b).
      split; [reflexivity|]. exists i, b. auto.
    - intros (s6 & s4 & st & -> & i & b & Hb & <- & <- & <-). exists (b_src6 b, b_src4 b, b_static b). split; [reflexivity|]. apply (bib_rows_in _ (Iv s Hi)). exists i, b. auto. }
  assert (As : forall s, In s states -> ascending addr4_of lt_ta (rows s)).
  { intros s Hi. unfold rows. apply ascending_map. cbn [addr4_of bib_entry]. exact (bib_rows_ascending _ (Iv s Hi)). }
  assert (R : forall last s, In s states -> (last = None \/ exists s6 s4 st, last = Some (IEntry (EBib s6 s4 q st))) ->
    rest_in K T (u_xt u) n (LBib q) last s = Datatypes.inr (filter (beyond addr4_of ltb_ta (option_map addr4_of last)) (rows s))).
  { intros last s Hi L. destruct (Ht s Hi) as (i & Fi & Ti). rewrite (rest_there K T u n _ _ _ i) by (exact Fi || (rewrite Hx; reflexivity)). cbn [rest_of].
    set (off := option_map addr4_of last).
    assert (E : match last with Some (IEntry (EBib _ a4 _ _)) => Some a4 | _ => None end = off) by (destruct L as [-> |(s6 & s4 & st & ->)]; reflexivity).
    rewrite E. rewrite (Ti off (filter (beyond row_key ltb_ta off) (bib_rows (table s)))).
    - cbn [plain]. unfold rows. rewrite map_map. rewrite filter_map. reflexivity.
    - intros cap. rewrite bib_foreach_page by exact (Iv s Hi). reflexivity. }
  assert (Sz : forall s x, In s states -> In x (rows s) -> item_size x = 72) by (intros s x Hi X; apply (Hh s Hi) in X; destruct X as (s6 & s4 & st & -> & _); reflexivity).
  assert (Md : forall last, may_say (rest_in K T (u_xt u) n (LBib q)) states last -> last = None \/ exists s6 s4 st, last = Some (IEntry (EBib s6 s4 q st))).
  { intros last M. induction M as [|last s r x M IH Hi E X]; [left; reflexivity|right]. rewrite (R last s Hi IH) in E. injection E as <-. apply filter_In in X. destruct X as [X _].
    apply (Hh s Hi) in X. destruct X as (s6 & s4 & st & -> & _). eauto. }
  rewrite C84_listing; auto.
  2:{ intros s last r Hi M E. rewrite (R last s Hi (Md last M)) in E. injection E as <-. apply Forall_forall. intros x X. apply filter_In in X. destruct X as [X _].
      apply (Hh s Hi) in X. destruct X as (s6 & s4 & st & -> & X). destruct (Hf s s6 s4 st Hi X) as [F1 F2]. cbn [fit_item fit_entry]. auto. }
  rewrite (shown_pages addr4_of ltb_ta 72 rows w); [|exact Sz|lia|intros s Hi; apply R; auto|].
  2:{ intros s s' x H1 H2 X. apply (Hh s H1) in X. destruct X as (s6 & s4 & st & -> & _). apply R; [exact H2|]. right. eauto. }
  pose proof (keys_sound addr4_of lt_ta ltb_ta 72 rows ltb_ta_spec lt_ta_trans w states As) as X. destruct (n_room _ _ _ N) as [_ Rm]. specialize (X ltac:(lia)). cbn [option_map].
  destruct (request_all _ _ None) as [out|out|out]; [|contradiction|].
  - exists out, Lst_Model.Complete. split; [reflexivity|]. destruct X as (X1 & X2 & X3). split; [exact X1|]. split.
    + intros x Hx'. destruct (X2 x Hx') as (s & Hi & Hin). apply (Hh s Hi) in Hin. destruct Hin as (s6 & s4 & st & -> & Hin). exists s, s6, s4, st. auto.
    + intros s6 s4 st Ha Hne. destruct (X3 s4) as (x & Hx' & Ek).
      { intros s Hi. exists (IEntry (EBib s6 s4 q st)). split; [|reflexivity]. apply (Hh s Hi). exists s6, s4, st. auto. }
      destruct (X2 x Hx') as (s & Hi & Hin). replace (IEntry (EBib s6 s4 q st)) with x; [exact Hx'|].
      apply (same_key addr4_of lt_ta lt_ta_irr (rows s)); [exact (As s Hi)|exact Hin| |exact Ek]. apply (Hh s Hi). exists s6, s4, st. auto.
  - exists out, Pending. auto.
Qed.
Print Assumptions C84_bib.

Theorem C84_sessions : forall S I h (K : kernel S I) (T : tables S I) u w n states q c p (table : S -> tb) (more : S -> sentry -> Z * Z * Z),
  Req_Spec.normal K u w -> fit_name n -> u_xt u = XT_NAT64 -> is_u8 q ->
  (forall s, In s states -> reachable p (table s)) -> throughout K n (u_xt u) states (fun i s => table_session T i s q (more s) c p (table s)) ->
  (forall s e, is_u8 (fst (fst (more s e))) /\ is_u32 (snd (fst (more s e)))) ->
  (forall s s6 s4 d6 d4, In s states -> has_session (table s) s6 s4 d6 d4 -> fit_taddr6 s6 /\ fit_taddr4 s4 /\ fit_taddr6 d6 /\ fit_taddr4 d4) ->
  exists out e, foreach h K T u w true n (LSession q) None states = Got (out, e) /\
    match e with
    | Lst_Model.Failed _ => False
    | Pending => (length states <= length out)%nat
    | Lst_Model.Complete => StronglySorted (fun x y => lt_tt (addrs4_of x) (addrs4_of y)) out /\
        (forall x, In x out -> exists s s6 s4 d6 d4 st ms, x = ISession (US s6 d6 s4 d4 q st ms) /\ In s states /\ has_session (table s) s6 s4 d6 d4) /\
        (forall s4 d4, (forall s, In s states -> exists s6 d6, has_session (table s) s6 s4 d6 d4) -> exists s6 d6 st ms, In (ISession (US s6 d6 s4 d4 q st ms)) out)
    end.
Proof.
  intros S I h K T u w n states q c p table more N Hn Hx Hq Hr Ht Hm Hf.
  set (show := fun s e => ISession (US (e_src6 e) (e_dst6 e) (e_src4 e) (e_dst4 e) q (fst (fst (more s e))) (snd (fst (more s e))))).
  set (rows := fun s => map (show s) (sess_rows c p (table s))).
  assert (Iv : forall s, In s states -> inv [] (table s)) by (intros s Hi; exact (proj1 (reach_inv p _ (Hr s Hi)))).
  assert (Hh : forall s, In s states -> forall x, In x (rows s) -> exists e, x = show s e /\ has_session (table s) (e_src6 e) (e_src4 e) (e_dst6 e) (e_dst4 e)).
  { intros s Hi x X. unfold rows in X. apply in_map_iff in X. destruct X as (e & <- & X). exists e. split; [reflexivity|]. apply (sess_rows_in c p _ (Iv s Hi)) in X.
    destruct X as (j & se & b & H1 & H2 & ->). exists j, se, b. cbn. auto 10. }
  assert (Hb : forall s, In s states -> forall s6 s4 d6 d4, has_session (table s) s6 s4 d6 d4 -> exists x, In x (rows s) /\ addrs4_of x = (s4, d4)).
  { intros s Hi s6 s4 d6 d4 (j & se & b & H1 & H2 & E1 & E2 & E3 & E4). eexists. split.
    - unfold rows. apply in_map. apply (sess_rows_in c p _ (Iv s Hi)). exists j, se, b. split; [exact H1|]. split; [exact H2|reflexivity].
    - cbn. rewrite E2, E4. reflexivity. }
  assert (As : forall s, In s states -> ascending addrs4_of lt_tt (rows s)).
  { intros s Hi. unfold rows. apply ascending_map. exact (sess_rows_ascending c p _ (Iv s Hi)). }
  assert (R : forall last s, In s states -> (last = None \/ exists x, last = Some (ISession x)) ->
    rest_in K T (u_xt u) n (LSession q) last s = Datatypes.inr (filter (beyond addrs4_of ltb_tt (option_map addrs4_of last)) (rows s))).
  { intros last s Hi L. destruct (Ht s Hi) as (i & Fi & Ti). rewrite (rest_there K T u n _ _ _ i) by (exact Fi || (rewrite Hx; reflexivity)). cbn [rest_of].
    set (off := option_map addrs4_of last).
    assert (E : match last with Some (ISession x) => Some (us_src4 x, us_dst4 x) | _ => None end = off) by (destruct L as [-> |(x & ->)]; reflexivity).
    rewrite E. rewrite (Ti off (filter (beyond sess_key ltb_tt off) (sess_rows c p (table s)))).
    - cbn [plain]. unfold rows. rewrite map_map. rewrite filter_map. reflexivity.
    - intros cap. rewrite bib_foreach_session_page by exact (Iv s Hi). reflexivity. }
  assert (Sz : forall s x, In s states -> In x (rows s) -> item_size x = 140) by (intros s x Hi X; apply (Hh s Hi) in X; destruct X as (e & -> & _); reflexivity).
  assert (Md : forall last, may_say (rest_in K T (u_xt u) n (LSession q)) states last -> last = None \/ exists x, last = Some (ISession x)).
  { intros last M. induction M as [|last s r x M IH Hi E X]; [left; reflexivity|right]. rewrite (R last s Hi IH) in E. injection E as <-. apply filter_In in X. destruct X as [X _].
    apply (Hh s Hi) in X. destruct X as (e & -> & _). eexists. reflexivity. }
  rewrite C84_listing; auto.
  2:{ intros s last r Hi M E. rewrite (R last s Hi (Md last M)) in E. injection E as <-. apply Forall_forall. intros x X. apply filter_In in X. destruct X as [X _].
      apply (Hh s Hi) in X. destruct X as (e & -> & X). destruct (Hf s _ _ _ _ Hi X) as (F1 & F2 & F3 & F4). destruct (Hm s e) as [M1 M2].
      unfold show. cbn [fit_item]. unfold fit_session. cbn. auto 10. }
  rewrite (shown_pages addrs4_of ltb_tt 140 rows w); [|exact Sz|lia|intros s Hi; apply R; auto|].
  2:{ intros s s' x H1 H2 X. apply (Hh s H1) in X. destruct X as (e & -> & _). apply R; [exact H2|]. right. eexists. reflexivity. }
  pose proof (keys_sound addrs4_of lt_tt ltb_tt 140 rows ltb_tt_spec lt_tt_trans w states As) as X. destruct (n_room _ _ _ N) as [_ Rm]. specialize (X ltac:(lia)). cbn [option_map].
  destruct (request_all _ _ None) as [out|out|out]; [|contradiction|].
  - exists out, Lst_Model.Complete. split; [reflexivity|]. destruct X as (X1 & X2 & X3). split; [exact X1|].
    assert (X4 : forall x, In x out -> exists s s6 s4 d6 d4 st ms, x = ISession (US s6 d6 s4 d4 q st ms) /\ In s states /\ has_session (table s) s6 s4 d6 d4).
    { intros x Hx'. destruct (X2 x Hx') as (s & Hi & Hin). apply (Hh s Hi) in Hin. destruct Hin as (e & -> & Hin). exists s, (e_src6 e), (e_src4 e), (e_dst6 e), (e_dst4 e), (fst (fst (more s e))), (snd (fst (more s e))). auto. }
    split; [exact X4|]. intros s4 d4 Ha. destruct (X3 (s4, d4)) as (x & Hx' & Ek).
    { intros s Hi. destruct (Ha s Hi) as (s6 & d6 & Hs). exact (Hb s Hi _ _ _ _ Hs). }
    destruct (X4 x Hx') as (s & s6 & s4' & d6 & d4' & st & ms & -> & _ & _). cbn in Ek. injection Ek as -> ->. eauto.
  - exists out, Pending. auto.
Qed.
Print Assumptions C84_sessions.

(** ** Examples: the module of [Req_Properties], with the tables of the other files *)

Definition proto_trees (q : Z) (p : pool4) : tree := match get_trees p (proto_of q) with Some t => tmark t | None => [] end.
Definition unsampled (e : entry) : Z * range := match e with EPool4 m _ _ _ (P4 a l) (lo, hi) => (m, Rg a l lo hi) | _ => (0, Rg 0 0 0 0) end.
Definition demo_tables : tables machine unit := {|
  t_eamt := fun _ off s => match eamt_foreach (m_eamt s) off with Ok (OK, l) => inr (map (fun e => (e_p6 e, e_p4 e)) l) | Ok (Err e, _) => inl e | _ => inl EPERM end;
  t_deny := fun _ off s => match foreach_page prefix4_equals (m_deny s) (length (m_deny s)) off with (l, _, None) => inr l | _ => inl ESRCH end;
  t_pool4 := fun _ q off s => match pool4db_foreach_sample (proto_trees q (m_pool4 s)) (length (samples (proto_trees q (m_pool4 s)))) (option_map unsampled off) with (l, _, None) => inr (map (sampled q (fun _ => (0, 0))) l) | _ => inl EAGAIN end;
  t_bib := fun _ q off s => match bib_foreach (m_udp s) off (length (bib_rows (m_udp s))) with Ok (l, _) => inr (map (bib_entry q) l) | _ => inl EPERM end;
  t_session := fun _ q off s => match bib_foreach_session conf UDP (m_udp s) off false (length (sess_rows conf UDP (m_udp s))) with Ok (l, _) => inr (map (fun e => (US (e_src6 e) (e_dst6 e) (e_src4 e) (e_dst4 e) q 0 7, 0)) l) | _ => inl EPERM end |}.
(** Three entries of the EAMT fit in this message, or eight prefixes, or two of pool4 or the BIB, or one session. *)
Definition narrow : answering := Answering 200 true [78; 111].
Lemma narrow_siit : Req_Spec.normal demo siit narrow.
Proof. constructor; [ok_command|left; split; reflexivity|split; reflexivity|cbn; lia|repeat constructor; lia]. Qed.
Lemma narrow_nat64 : Req_Spec.normal demo nat64 narrow.
Proof. constructor; [ok_command|right; split; reflexivity|split; reflexivity|cbn; lia|repeat constructor; lia]. Qed.

Definition net (k : Z) : prefix4 := P4 (3221225984 + 256 * k) 24.
Definition nets (l : list Z) : machine := snd (run_all le demo siit (map (fun k => DenyAdd (net k) false) l) fresh_machine).
Definition eams (l : list Z) : machine := snd (run_all le demo siit (map (fun k => EamtAdd (P6 (42540766411282592856903984951653826560 + 256 * k) 120) (net k) false) l) fresh_machine).

Example C84_listing_nontrivial :
  foreach le demo demo_tables siit narrow true None LDeny None (repeat (nets [1; 2; 3; 4; 5; 6; 7; 8; 9; 10]) 2) =
    Got (map (fun k => IEntry (EDeny (net k))) [1; 2; 3; 4; 5; 6; 7; 8; 9; 10], Lst_Model.Complete) /\
  foreach (Host true false) demo demo_tables siit narrow true None LDeny None (repeat (nets [1; 2; 3; 4; 5; 6; 7; 8; 9; 10]) 1) =
    Got (map (fun k => IEntry (EDeny (net k))) [1; 2; 3; 4; 5; 6; 7; 8], Pending) /\
  foreach le demo demo_tables nat64 narrow true None LDeny None [fresh_machine] = Got ([], Lst_Model.Failed (Refused 22 [78; 111])) /\
  foreach le demo demo_tables siit narrow true (Some [97]) LDeny None [fresh_machine] = Got ([], Lst_Model.Failed (Refused 3 [78; 111])).
Proof. repeat split; vm_compute; reflexivity. Qed.

Lemma page_length : forall l cap off, (length (fst (fst (foreach_page prefix4_equals l cap off))) <= length l)%nat.
Proof.
  induction l as [|x l IH]; intros cap off; cbn [foreach_page length]; [cbn; lia|]. destruct off as [o|].
  - specialize (IH cap (if prefix4_equals o x then None else Some o)). lia.
  - destruct cap as [|c]; [cbn; lia|]. specialize (IH c None). destruct (foreach_page prefix4_equals l c None) as ((a, b), o). cbn [fst length] in *. lia.
Qed.
(** The tables of the examples are as the theorems suppose. *)
Lemma demo_eamt : forall s, table_eamt demo_tables tt s (m_eamt s).
Proof. intros s off. reflexivity. Qed.
Lemma demo_deny : forall s, table_deny demo_tables tt s (m_deny s).
Proof.
  intros s off rest H. cbn [demo_tables t_deny]. pose proof (page_length (m_deny s) (length rest) off) as L. rewrite H in *. cbn [fst] in L. rewrite firstn_all in L.
  rewrite firstn_all2 by exact L. reflexivity.
Qed.
Lemma offset_length : forall l r rest, find_offset l r = Some rest -> (length rest <= length l)%nat.
Proof. induction l as [|x l IH]; intros r rest H; cbn [find_offset] in H; [discriminate|]. destruct (ipv4_range_equals r x); [injection H as <-; cbn; lia|]. specialize (IH r rest H). cbn [length]. lia. Qed.
Lemma sample_length : forall tr m t r rest, tree_find m tr = Some t -> find_offset (t_ranges t) r = Some rest ->
  (length (map (fun r => (m, r)) rest ++ samples (tables_after m tr)) <= length (samples tr))%nat.
Proof.
  induction tr as [|(k, tb) tr IH]; intros m t r rest F O; [discriminate|]. unfold tree_find in F. cbn [find tables_after fst snd] in *. unfold samples at 2. cbn [flat_map]. rewrite !app_length, !map_length. cbn [snd].
  fold (samples tr). destruct (k =? m).
  - injection F as <-. apply offset_length in O. lia.
  - fold (tree_find m tr) in F. specialize (IH m t r rest F O). rewrite app_length, map_length in IH. lia.
Qed.
Lemma demo_pool4 : forall s q, table_pool4 demo_tables tt s q (fun _ => (0, 0)) (proto_trees q (m_pool4 s)).
Proof.
  intros s q off rest H. cbn [demo_tables t_pool4]. set (tr := proto_trees q (m_pool4 s)) in *.
  assert (U : option_map unsampled (option_map (sampled q (fun _ => (0, 0))) off) = off) by (destruct off as [(m, [a l lo hi])|]; reflexivity).
  rewrite U, H. rewrite firstn_all2; [reflexivity|]. specialize (H (length rest)). rewrite firstn_all in H. unfold pool4db_foreach_sample in H. destruct off as [(m, r)|].
  - destruct (tree_find m tr) as [t|] eqn:F; [|discriminate]. destruct (find_offset (t_ranges t) r) as [rs|] eqn:O; [|discriminate].
    pose proof (sample_length tr m t r rs F O) as L. apply (f_equal (fun x => (length (fst (fst x)), snd (fst x)))) in H. cbn [fst snd] in H. injection H as H1 H2. rewrite firstn_length in H1. lia.
  - apply (f_equal (fun x => (length (fst (fst x)), snd (fst x)))) in H. cbn [fst snd] in H. injection H as H1 H2. rewrite firstn_length in H1. lia.
Qed.
Lemma filter_short : forall A (f : A -> bool) l, (length (filter f l) <= length l)%nat.
Proof. induction l as [|x l IH]; cbn [filter length]; [lia|]. destruct (f x); cbn [length]; lia. Qed.
Lemma demo_bib : forall s q, reachable UDP (m_udp s) -> table_bib demo_tables tt s q (m_udp s).
Proof.
  intros s q R off rows H. cbn [demo_tables t_bib]. destruct (reach_inv UDP _ R) as [Iv _]. specialize (H (length (bib_rows (m_udp s)))) as H1. rewrite H1. rewrite firstn_all2; [reflexivity|].
  rewrite (bib_foreach_page _ _ _ Iv) in H1. unfold key_page in H1. injection H1 as _ H2. pose proof (filter_short _ (beyond row_key ltb_ta off) (bib_rows (m_udp s))). lia.
Qed.
Lemma demo_session : forall s q, reachable UDP (m_udp s) -> table_session demo_tables tt s q (fun _ => (0, 7, 0)) conf UDP (m_udp s).
Proof.
  intros s q R off rows H. cbn [demo_tables t_session]. destruct (reach_inv UDP _ R) as [Iv _]. specialize (H (length (sess_rows conf UDP (m_udp s)))) as H1. rewrite H1. rewrite firstn_all2; [reflexivity|].
  rewrite (bib_foreach_session_page _ _ _ _ _ Iv) in H1. unfold key_page in H1. injection H1 as _ H2. pose proof (filter_short _ (beyond sess_key ltb_tt off) (sess_rows conf UDP (m_udp s))). lia.
Qed.

Example C84_eamt_nontrivial : orderly_history [] nest_ex /\
  match eam_run eamt_alloc nest_ex with
  | Ok (rs, t) => let s := set_eamt fresh_machine t in
      throughout demo None (u_xt siit) [s; s; s; s; s; s] (fun i s => table_eamt demo_tables i s t) /\
      map (fun x => match x with IEntry (EEam _ p4) => p4 | _ => P4 0 0 end) (match foreach le demo demo_tables siit narrow true None LEamt None [s; s] with Got (l, Lst_Model.Complete) => l | _ => [] end) =
        [P4 0x0a010180 25; P4 0xc0000200 24; P4 0x0a020000 16; P4 0x0a010100 24; P4 0x0a000000 8]
  | _ => False
  end.
Proof.
  split; [exact nest_ex_orderly|]. destruct (eam_run eamt_alloc nest_ex) as [(rs, t)| |] eqn:E; [|vm_compute in E; discriminate..]. cbv zeta. split.
  - intros s Hs. exists tt. split; [reflexivity|]. replace t with (m_eamt s); [apply demo_eamt|]. cbn [In] in Hs. intuition (subst; reflexivity).
  - vm_compute in E. injection E as <- <-. vm_compute. reflexivity.
Qed.
Example C84_denylist_nontrivial : let s := nets [1; 2; 3; 4; 5; 6; 7; 8; 9; 10] in
  throughout demo None (u_xt siit) (repeat s 11) (fun i s' => table_deny demo_tables i s' (m_deny s)) /\ Forall wt_prefix4 (m_deny s) /\ NoDup (m_deny s) /\
  m_deny s = map net [1; 2; 3; 4; 5; 6; 7; 8; 9; 10].
Proof.
  cbv zeta. assert (E : m_deny (nets [1; 2; 3; 4; 5; 6; 7; 8; 9; 10]) = map net [1; 2; 3; 4; 5; 6; 7; 8; 9; 10]) by (vm_compute; reflexivity). split; [|split; [|split; [|exact E]]].
  - intros s Hs. apply repeat_spec in Hs. exists tt. split; [reflexivity|]. subst s. apply demo_deny.
  - rewrite E. repeat constructor; vm_compute; congruence.
  - rewrite E. apply FinFun.Injective_map_NoDup; [intros x y X; apply (f_equal p4_addr) in X; unfold net in X; cbn [p4_addr] in X; lia|]. exact (NoDup_nodup Z.eq_dec [1; 2; 3; 4; 5; 6; 7; 8; 9; 10]).
Qed.
Definition pools : machine :=
  snd (run_all le demo nat64 [Pool4Add (EPool4 0 0 0 1 (P4 3221225985 32) (1000, 2000)) true; Pool4Add (EPool4 0 0 0 1 (P4 3221225986 32) (1, 9)) true; Pool4Add (EPool4 7 0 0 1 (P4 3221225985 32) (3000, 3000)) true;
    Pool4Rm (EPool4 0 0 0 1 (P4 3221225985 32) (1500, 1599)) true] fresh_machine).
Example C84_pool4_nontrivial :
  throughout demo None (u_xt nat64) [pools; pools] (fun i s => table_pool4 demo_tables i s 1 (fun _ => (0, 0)) (proto_trees 1 (m_pool4 pools))) /\
  foreach le demo demo_tables nat64 narrow true None (LPool4 1) None [pools; pools] = Got (map (fun x => IEntry (sampled 1 (fun _ => (0, 0)) x))
    [(7, Rg 3221225985 32 3000 3000); (0, Rg 3221225985 32 1000 1499); (0, Rg 3221225985 32 1600 2000); (0, Rg 3221225986 32 1 9)], Lst_Model.Complete).
Proof.
  split; [|vm_compute; reflexivity]. intros s Hs. exists tt. split; [reflexivity|]. cbn [In] in Hs. assert (E : s = pools) by intuition congruence. subst s. apply demo_pool4.
Qed.
Example C84_bib_nontrivial : exists t t', reachable UDP t /\ reachable UDP t' /\ n_bibs t = 4 /\ n_bibs t' = 3 /\
  let s := set_udp fresh_machine t in let s' := set_udp fresh_machine t' in
  throughout demo None (u_xt nat64) [s; s'; s'] (fun i s => table_bib demo_tables i s 1 (m_udp s)) /\ 
  throughout demo None (u_xt nat64) [s; s'; s'] (fun i s => table_session demo_tables i s 1 (fun _ => (0, 7, 0)) conf UDP (m_udp s)) /\ 
  foreach le demo demo_tables nat64 narrow true None (LBib 1) None [s; s'; s'] = Got (map (fun r => IEntry (bib_entry 1 r)) (bib_rows t), Lst_Model.Complete) /\
  match foreach le demo demo_tables nat64 narrow true None (LSession 1) None [s; s'; s'; s'] with Got (l, Lst_Model.Complete) => length l | _ => 0%nat end = 4%nat.
Proof.
  destruct (Bib_Model.run UDP init_table udp_history) as [(t, evs)| |] eqn:E; [|vm_compute in E; discriminate..].
  assert (R : reachable UDP t) by (exists udp_history, evs; split; [wf_history|exact E]).
  destruct (bib_rows t) as [|((x, y), z) rest] eqn:Er; [vm_compute in E; injection E as <- _; vm_compute in Er; discriminate|].
  destruct (Bib_Model.run UDP t [(conf, ORm x y)]) as [(t', evs')| |] eqn:E2.
  2,3: exfalso; vm_compute in E; injection E as <- _; vm_compute in Er; injection Er as <- <- <- <-; vm_compute in E2; discriminate.
  assert (R' : reachable UDP t') by (apply (reachable_app UDP t [(conf, ORm x y)] t' evs' R); [wf_history|exact E2]).
  exists t, t'. split; [exact R|]. split; [exact R'|]. cbv zeta.
  assert (P : forall s, In s [set_udp fresh_machine t; set_udp fresh_machine t'; set_udp fresh_machine t'] -> reachable UDP (m_udp s)) by (intros s Hs; cbn [In] in Hs; intuition (subst; assumption)).
  assert (A1 : throughout demo None (u_xt nat64) [set_udp fresh_machine t; set_udp fresh_machine t'; set_udp fresh_machine t'] (fun i s => table_bib demo_tables i s 1 (m_udp s))).
  { intros s Hs. exists tt. split; [reflexivity|]. apply demo_bib. exact (P s Hs). }
  assert (A2 : throughout demo None (u_xt nat64) [set_udp fresh_machine t; set_udp fresh_machine t'; set_udp fresh_machine t'] (fun i s => table_session demo_tables i s 1 (fun _ => (0, 7, 0)) conf UDP (m_udp s))).
  { intros s Hs. exists tt. split; [reflexivity|]. apply demo_session. exact (P s Hs). }
  assert (B : n_bibs t = 4 /\ n_bibs t' = 3 /\
    foreach le demo demo_tables nat64 narrow true None (LBib 1) None [set_udp fresh_machine t; set_udp fresh_machine t'; set_udp fresh_machine t'] = Got (map (fun r => IEntry (bib_entry 1 r)) (bib_rows t), Lst_Model.Complete) /\
    match foreach le demo demo_tables nat64 narrow true None (LSession 1) None [set_udp fresh_machine t; set_udp fresh_machine t'; set_udp fresh_machine t'; set_udp fresh_machine t'] with Got (l, Lst_Model.Complete) => length l | _ => 0%nat end = 4%nat).
  { vm_compute in E. injection E as <- _. vm_compute in Er. injection Er as <- <- <- <-. vm_compute in E2. injection E2 as <- _. vm_compute. auto. }
  destruct B as (B1 & B2 & B3 & B4). auto 10.
Qed.
Example C84_settings_nontrivial : exists g, globals_init zeroes XT_SIIT None = (OK, g) /\
  match foreach le demo demo_tables siit (Answering 544 true []) true None LGlobals None [fresh_machine] with
  | Got (l, Lst_Model.Complete) => map (fun x => match x with ISetting id v => (id, v) | _ => (0, VU8 0) end) l | _ => [] end =
    [(1, VU8 1); (2, VPrefix6 (Some 0) None); (3, VU32 1280); (4, VU8 0); (5, VU8 0); (6, VU8 0); (7, VU8 0);
     (8, VPlateaus [65535; 32000; 17914; 8166; 4352; 2002; 1492; 1006; 508; 296; 68]); (9, VU8 0); (10, VU8 2); (11, VU8 1); (12, VPrefix6 (Some 0) None); (13, VPrefix4 (Some 0) None)] /\
  documented XT_SIIT g /\ wt_globals g.
Proof.
  assert (Q : forall l, forallb (fun x => (0 <=? x) && (x <? 65536)) l = true -> Forall is_u16 l).
  { intros l H. rewrite forallb_forall in H. apply Forall_forall. intros x Hx. specialize (H x Hx). unfold is_u16. lia. }
  assert (W : wt_globals zeroes).
  { unfold wt_globals, wt_plateaus, wt_prefix6, wt_prefix4, is_u128, is_u32, is_u8, zeroes. cbn [pool6 plateaus p6791v6 p6791v4 pre6 pre4 values count p6_addr p6_len p4_addr p4_len].
    split; [split; [apply repeat_length|split; [|lia]]|lia]. apply Q. vm_compute. reflexivity. }
  destruct (globals_init zeroes XT_SIIT None) as [r g] eqn:E. assert (r = OK) by (vm_compute in E; congruence). subst r. exists g. split; [reflexivity|]. split; [vm_compute; reflexivity|].
  split; [exact (Glob_Properties.C44 XT_SIIT None zeroes g [] (or_introl eq_refl) W Logic.I E (Forall_nil _))|].
  vm_compute in E. injection E as <-. unfold wt_globals, wt_plateaus, wt_prefix6, wt_prefix4, is_u128, is_u32, is_u8. cbn [pool6 plateaus p6791v6 p6791v4 pre6 pre4 values count p6_addr p6_len p4_addr p4_len].
  split; [split; [reflexivity|split; [|lia]]|lia]. apply Q. vm_compute. reflexivity.
Qed.

(** ** What goes wrong *)

(** A prefix is removed from the denylist during the listing, the one that the client was shown last: the next request is refused (ESRCH), and prefixes that
    were there all along are not shown. (The same happens to the EAMT and to pool4.) *)
Theorem C84_removed_refuted : exists h K T u w n (states : list machine) p out o,
  @Req_Spec.normal machine unit K u w /\ fit_name n /\ throughout K n (u_xt u) states (fun i s => table_deny T i s (m_deny s)) /\
  (forall s, In s states -> In p (m_deny s)) /\
  foreach h K T u w true n LDeny None states = Got (out, Lst_Model.Failed o) /\ ~ In (IEntry (EDeny p)) out.
Proof.
  exists le, demo, demo_tables, siit, narrow, None, [nets [1; 2; 3; 4; 5; 6; 7; 8; 9]; nets [1; 2; 3; 4; 5; 6; 7; 9]], (net 9), (map (fun k => IEntry (EDeny (net k))) [1; 2; 3; 4; 5; 6; 7; 8]), (Refused 3 [78; 111]).
  split; [exact narrow_siit|]. split; [exact Logic.I|]. split; [|split; [|split]].
  - intros s _. exists tt. split; [reflexivity|apply demo_deny].
  - intros s [<-|[<-|[]]]; vm_compute; tauto.
  - vm_compute. reflexivity.
  - vm_compute. intros C. repeat (destruct C as [C|C]; [discriminate C|]). exact C.
Qed.
Print Assumptions C84_removed_refuted.
Theorem C84_removed_eamt_refuted : exists h K T u w n (states : list machine) e out o,
  @Req_Spec.normal machine unit K u w /\ fit_name n /\ throughout K n (u_xt u) states (fun i s => table_eamt T i s (m_eamt s)) /\
  (forall s, In s states -> exists l, eamt_foreach (m_eamt s) None = Ok (OK, l) /\ In e l) /\
  foreach h K T u w true n LEamt None states = Got (out, Lst_Model.Failed o) /\ ~ In (IEntry (EEam (e_p6 e) (e_p4 e))) out.
Proof.
  exists le, demo, demo_tables, siit, narrow, None, [eams [4; 3; 2; 1]; eams [4; 2; 1]], (Eam (P6 (42540766411282592856903984951653826560 + 256 * 4) 120) (net 4)).
  eexists _, _. split; [exact narrow_siit|]. split; [exact Logic.I|]. split; [|split; [|split]].
  - intros s _. exists tt. split; [reflexivity|apply demo_eamt].
  - intros s [<-|[<-|[]]]; eexists; (split; [vm_compute; reflexivity|vm_compute; tauto]).
  - vm_compute. reflexivity.
  - vm_compute. intros C. repeat (destruct C as [C|C]; [discriminate C|]). exact C.
Qed.
Print Assumptions C84_removed_eamt_refuted.

(** The same prefix many times in the denylist, which `denylist4 add --force` allows (C09): the listing goes on forever, though nothing changes. *)
Definition repeated : machine := snd (run_all le demo siit (repeat (DenyAdd (net 1) true) 10) fresh_machine).
Theorem C84_repeated_refuted : exists h K T u w n (s : machine),
  @Req_Spec.normal machine unit K u w /\ fit_name n /\ throughout K n (u_xt u) [s] (fun i s => table_deny T i s (m_deny s)) /\ Forall wt_prefix4 (m_deny s) /\ length (m_deny s) = 10%nat /\
  forall k, exists out, foreach h K T u w true n LDeny None (repeat s k) = Got (out, Pending).
Proof.
  exists le, demo, demo_tables, siit, narrow, None, repeated. split; [exact narrow_siit|]. split; [exact Logic.I|]. split; [|split; [|split]].
  - intros s _. exists tt. split; [reflexivity|apply demo_deny].
  - assert (E : m_deny repeated = repeat (net 1) 10) by (vm_compute; reflexivity). rewrite E. apply Forall_forall. intros x X. apply repeat_spec in X. subst x. split; vm_compute; split; congruence.
  - vm_compute. reflexivity.
  - intros k.
    assert (R0 : rest_in demo demo_tables (u_xt siit) None LDeny None repeated = inr (repeat (IEntry (EDeny (net 1))) 10)) by (vm_compute; reflexivity).
    assert (R1 : rest_in demo demo_tables (u_xt siit) None LDeny (Some (IEntry (EDeny (net 1)))) repeated = inr (repeat (IEntry (EDeny (net 1))) 9)) by (vm_compute; reflexivity).
    rewrite C84_listing; [|exact narrow_siit|exact Logic.I|exact Logic.I|].
    + assert (G : forall j, exists out, Lst_Spec.shown narrow (rest_in demo demo_tables (u_xt siit) None LDeny) (Some (IEntry (EDeny (net 1)))) (repeat repeated j) = (out, Pending)).
      { intros j. induction j as [|j IH]; [exists []; reflexivity|]. destruct IH as (out & IH). cbn [repeat Lst_Spec.shown]. rewrite R1. eexists.
        replace (fits (a_cap narrow - 28) (repeat (IEntry (EDeny (net 1))) 9)) with 8%nat by (vm_compute; reflexivity). cbn [repeat length Nat.leb firstn rev app]. rewrite IH. reflexivity. }
      destruct k as [|k]; [exists []; reflexivity|]. destruct (G k) as (out & E). cbn [repeat Lst_Spec.shown]. rewrite R0. eexists.
      replace (fits (a_cap narrow - 28) (repeat (IEntry (EDeny (net 1))) 10)) with 8%nat by (vm_compute; reflexivity). cbn [repeat length Nat.leb firstn rev app]. rewrite E. reflexivity.
    + assert (M : forall last, may_say (rest_in demo demo_tables (u_xt siit) None LDeny) (repeat repeated k) last -> last = None \/ last = Some (IEntry (EDeny (net 1)))).
      { intros last M. induction M as [|last s r x M IH Hi E X]; [left; reflexivity|right]. apply repeat_spec in Hi. subst s.
        destruct IH as [-> | ->]; [rewrite R0 in E|rewrite R1 in E]; injection E as <-; apply (repeat_spec 10 (IEntry (EDeny (net 1))) x) in X || apply (repeat_spec 9 (IEntry (EDeny (net 1))) x) in X; subst x; reflexivity. }
      intros s last r Hi Mm E. apply repeat_spec in Hi. subst s.
      destruct (M last Mm) as [-> | ->]; [rewrite R0 in E|rewrite R1 in E]; injection E as <-; apply Forall_forall; intros x X; apply (repeat_spec 10 (IEntry (EDeny (net 1))) x) in X || apply (repeat_spec 9 (IEntry (EDeny (net 1))) x) in X; subst x;
        (split; [reflexivity|]); split; vm_compute; split; congruence.
Qed.
Print Assumptions C84_repeated_refuted.

(** An answer that could be read *)
Definition readable_answer : list Z :=
  match joolnl_alloc_msg siit None 0 with
  | Some b =>
    match ask le (u_cap siit) LDeny None b with
    | Put b => match serve_list le demo demo_tables narrow true LDeny b repeated with Got (Some a) => a | _ => [] end
    | NoRoom _ => []
    end
  | None => []
  end.
Example unreadable_meets : exists items, foreach_response le siit LDeny readable_answer = Got (items, None) /\ length items = 8%nat.
Proof. eexists. vm_compute. split; reflexivity. Qed.

