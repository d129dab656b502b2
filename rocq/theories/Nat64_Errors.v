(** Claim C59: an ICMP error about a translated packet reaches its sender. *)
Require Import Verif.Base Verif.Addr_Model Verif.Addr_Spec Verif.Addr_Properties Verif.Rtrie_Model Verif.Pool4_Model Verif.Fsm_Model Verif.Bib_Model
  Verif.Bib_Find Verif.Bib_Hist Verif.Bib_Spec Verif.Bib_Properties Verif.Nat64_Model Verif.Nat64_Spec Verif.Nat64_Properties.
Local Ltac Zify.zify_post_hook ::= idtac.

Lemma find4_has : forall p t s6 s4 st, reachable p t -> has t s6 s4 st -> bib_find4 t s4 = Ok (Some (s6, s4, st)).
Proof.
  intros p t s6 s4 st R H. destruct (C15_lookup p t R) as (_ & L & _). destruct (L s4) as [(_ & N)|(s6' & st' & E & H')]; [exfalso; apply N; exists s6, st; exact H|].
  rewrite E. destruct (has_unique p t R _ _ _ _ _ _ H H' (or_intror eq_refl)) as (-> & _ & ->). reflexivity.
Qed.
Lemma find6_has : forall p t s6 s4 st, reachable p t -> has t s6 s4 st -> bib_find6 t s6 = Ok (Some (s6, s4, st)).
Proof.
  intros p t s6 s4 st R H. destruct (C15_lookup p t R) as (L & _). destruct (L s6) as [(_ & N)|(s4' & st' & E & H')]; [exfalso; apply N; exists s4, st; exact H|].
  rewrite E. destruct (has_unique p t R _ _ _ _ _ _ H H' (or_introl eq_refl)) as (_ & -> & ->). reflexivity.
Qed.
Lemma reachable_table : forall s pr, reachable_db s -> pr <> OTHER -> reachable pr (get_table s pr).
Proof. intros s [] (Ru & Rt & _ & Ri) H; try assumption. congruence. Qed.
Lemma icmp4_cases : forall f ty (X : Type) (a : X) b, match f, ty with V6, 128 | V6, 129 | V4, 0 | V4, 8 => Some a | _, _ => None end = Some b ->
  a = b /\ match f with V6 => is_icmp6_error ty | V4 => is_icmp4_error ty end = false.
Proof.
  intros [] ty X a b H; destruct ty as [|q|q]; try discriminate; [|injection H as ->; auto|]; do 9 (try (destruct q as [q|q|]; try discriminate)); injection H as ->; auto.
Qed.
Lemma error_view : forall k i pr a b, icmp_error k i -> about (k_fam k) i = Some (pr, a, b) -> pr <> OTHER /\ (pr = ICMP -> snd a = snd b) /\
  determine_in_tuple k = (Continue, Some (View (k_fam k) (k_src k) (k_dst k) ICMP true (Seg (k_fam k) false false false) b a pr)).
Proof.
  intros k i pr a b (ty & id & E & H) Ab. unfold determine_in_tuple. rewrite E.
  assert (N : match k_fam k with V6 => is_icmp6_info ty | V4 => is_icmp4_info ty end = false /\ match k_fam k with V6 => is_icmp6_error ty | V4 => is_icmp4_error ty end = true).
  { destruct (k_fam k); cbn [In] in H; repeat (destruct H as [<-|H]; [split; reflexivity|]); destruct H. }
  destruct N as [-> ->]. unfold icmp_err, about in *. destruct (in_l4 i) as [p q|p q|t1 i1|]; [| | |discriminate].
  - injection Ab as <- <- <-. repeat split; discriminate.
  - injection Ab as <- <- <-. repeat split; discriminate.
  - apply icmp4_cases in Ab. destruct Ab as [Ab ->]. injection Ab as <- <- <-. repeat split; discriminate.
Qed.

(** From the IPv4 side: [i] is what was sent from [S4] (that is [S6]) to [D4]. *)
Theorem C59_errors4 : forall g n n2 nm x2 s k i pr S6 S4 D4 st,
  reachable_db s -> pool6_ok g -> k_fam k = V4 -> icmp_error k i -> about V4 i = Some (pr, S4, D4) -> is_u32 (fst D4) ->
  has (get_table s pr) S6 S4 st -> pool4db_contains (g_pool4 g) (n_ifas n) pr (fst S4) (snd S4) = Ok true ->
  exists a6, rfc6052_4to6 (g_pool6 g) (fst D4) = Some a6 /\
    core_common g n n2 nm Continue x2 s k = Ok (Sent V6 (Out (a6, match pr with ICMP => snd S6 | _ => snd D4 end) S6), s, []).
Proof.
  intros g n n2 nm x2 s k i pr S6 S4 D4 st R (W & fo & P) Hf He Ab Hu Hh Hp. rewrite <- Hf in Ab. destruct (error_view _ _ _ _ _ He Ab) as (Np & _ & E).
  destruct (C01_rfc6052_roundtrip _ _ _ W P Hu) as (a6 & E6 & _). exists a6. split; [exact E6|]. unfold core_common. rewrite E, Hf.
  unfold steps23, filtering_and_updating, fu_admit. cbn [v_fam v_pr v_dst v_err]. rewrite Hp. cbn [bind negb]. unfold compute_out_tuple, find_bib, bib_find. cbn [v_fam v_pr v_dst v_src].
  rewrite (find4_has pr _ _ _ _ (reachable_table _ _ R Np) Hh). cbn [bind]. rewrite E6. cbn [bind flip]. unfold is_hairpin. cbn [v_fam bind]. reflexivity.
Qed.
Print Assumptions C59_errors4.

(** So an error about a packet that left for the IPv4 side comes back to its
    sender as an error about the packet it sent. *)
Theorem C59_back : forall g n n2 nm x1 x2 s k pr S6 D6 o s1 evs,
  pool6_ok g -> k_fam k = V6 -> flow k = Some (pr, S6, D6) -> canonical g (fst D6) ->
  core_common g n n2 nm x1 x2 s k = Ok (Sent V4 o, s1, evs) ->
  forall m m2 nm' x2' s2 k2 i st, reachable_db s2 -> k_fam k2 = V4 -> icmp_error k2 i -> about V4 i = Some (pr, o_src o, o_dst o) ->
  has (get_table s2 pr) S6 (o_src o) st -> pool4db_contains (g_pool4 g) (n_ifas m) pr (fst (o_src o)) (snd (o_src o)) = Ok true ->
  core_common g m m2 nm' Continue x2' s2 k2 = Ok (Sent V6 (Out D6 S6), s2, []).
Proof.
  intros g n n2 nm x1 x2 s k pr S6 D6 o s1 evs P6 Hf Fl Ca H m m2 nm' x2' s2 k2 i st R Hf2 He Ab Hh Hp.
  destruct (out_there _ _ _ _ _ _ _ _ _ _ _ _ _ _ Hf Fl H) as (a4 & E1 & E2 & E3). destruct (canonical_back _ _ P6 Ca) as (a4' & U & F1 & F2). assert (a4' = a4) by congruence. subst a4'.
  destruct (C59_errors4 g m m2 nm' x2' s2 k2 i pr S6 (o_src o) (o_dst o) st R P6 Hf2 He Ab ltac:(rewrite E2; exact U) Hh Hp) as (a6 & G1 & G2).
  rewrite G2. rewrite E2 in G1 |- *. cbn [fst snd] in *. assert (a6 = fst D6) by congruence. subst a6. do 4 f_equal.
  clear -E3. destruct D6 as [da dp]. cbn [fst snd] in *. destruct pr; try reflexivity. rewrite (E3 eq_refl). reflexivity.
Qed.
Print Assumptions C59_back.

(** From the IPv6 side: [i] is what was delivered to [S6] (that is [S4]) from [D6]. *)
Theorem C59_errors6 : forall g n n2 nm x2 s k i pr S6 S4 D6 a4 st,
  reachable_db s -> k_fam k = V6 -> icmp_error k i -> about V6 i = Some (pr, D6, S6) -> rfc6052_6to4 (g_pool6 g) (fst D6) = Some a4 ->
  prefix6_contains (g_pool6 g) (k_src k) = false -> prefix6_contains (g_pool6 g) (k_dst k) = true ->
  has (get_table s pr) S6 S4 st ->
  let o := Out S4 (a4, match pr with ICMP => snd S4 | _ => snd D6 end) in
  pool4db_contains (g_pool4 g) (n_ifas n) pr (fst (o_dst o)) (snd (o_dst o)) = Ok false ->
  core_common g n n2 nm Continue x2 s k = Ok (Sent V4 o, s, []).
Proof.
  intros g n n2 nm x2 s k i pr S6 S4 D6 a4 st R Hf He Ab Ex Hp1 Hp2 Hh o Hc. rewrite <- Hf in Ab. destruct (error_view _ _ _ _ _ He Ab) as (Np & _ & E).
  unfold core_common. rewrite E, Hf. unfold steps23, filtering_and_updating, fu_admit. cbn [v_fam v_saddr v_daddr v_err]. rewrite Hp1, Hp2. cbn [bind negb].
  unfold compute_out_tuple, find_bib, bib_find. cbn [v_fam v_pr v_dst v_src]. rewrite (find6_has pr _ _ _ _ (reachable_table _ _ R Np) Hh). cbn [bind]. rewrite Ex. cbn [bind flip].
  unfold is_hairpin. cbn [v_fam v_pr]. fold o. rewrite Hc. reflexivity.
Qed.
Print Assumptions C59_errors6.
