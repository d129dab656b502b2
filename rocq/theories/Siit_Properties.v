(** C49, C68 - C71: SIIT's address translation. *)
Require Import Verif.Base Verif.Addr_Model Verif.Addr_Spec Verif.Addr_Proofs Verif.Addr_Properties.
Require Import Verif.Rtrie_Model Verif.Eam_Model Verif.Eam_Spec Verif.Eam_Proofs.
Require Import Verif.Deny_Model Verif.Deny_Spec.
Require Import Verif.Siit_Model Verif.Siit_Spec Verif.Siit_Proofs.
Local Ltac Zify.zify_post_hook ::= Z.div_mod_to_equations.

(** ** C68: which addresses are translated, and into what *)

(** IPv6 to IPv4, both headers, any hairpinning mode: a header is translated
    exactly when the documented rules allow it, and into what they say; nothing
    is dropped.  Partial: the EAMT comes from a tame history. *)
Theorem C68_6to4_partial : forall st c u inner l hairpin, view st c -> wf_site c -> wt_leg6 l -> wt_luck u ->
  exists o, translate_addrs64_siit st u inner l hairpin = Ok o /\
    (forall s4 d4 h, o = Continue (s4, d4, h) -> leg64 c l s4 d4) /\
    ((exists s4 d4, leg64 c l s4 d4) -> exists s4 d4 h, o = Continue (s4, d4, h)) /\
    ((forall s4 d4, ~ leg64 c l s4 d4) -> exists s, o = Untranslatable s).
Proof.
  intros st c u inner l hp V W (Hs & Hd & Hh) (Hu & _). unfold translate_addrs64_siit.
  destruct (one64 st c (l_dst l) true V W Hd) as (vd & -> & Xd). cbn [bind].
  destruct vd as [d4 md| | |].
  - destruct Xd as (Nd & Ud & hd & -> & Sd & Pd). specialize (Pd eq_refl).
    assert (D : xl64 c (l_dst l) d4) by (split; eauto).
    assert (Mk : forall s ms, is_u32 s -> exists b, mark_hairpin64 st inner l s ms d4 (meth hd) hp = Ok b).
    { intros s ms Us. unfold mark_hairpin64.
      destruct (contains4 st c d4 V Ud) as (b1 & -> & _). destruct (contains4 st c s V Us) as (b2 & -> & _). cbn [bind].
      destruct (s_mode st =? EHM_INTRINSIC), (negb inner && negb (l_err l) && is_6052 (meth hd)), (inner && is_6052 ms); eauto. }
    destruct (one64 st c (l_src l) (negb (l_err l)) V W Hs) as (vs & -> & Xs). cbn [bind].
    destruct vs as [s4 ms| | |].
    + destruct Xs as (Ns & Us & hs & -> & Ss & Ps). destruct (Mk s4 (meth hs) Us) as (b & ->). cbn [bind].
      assert (L : leg64 c l s4 d4).
      { split; [exact D|]. destruct (l_err l); [split; [exact Ns|left; eauto]|split; [exact Ns|exists hs; split; [exact Ss|apply Ps; reflexivity]]]. }
      eexists. split; [reflexivity|]. split; [intros ? ? ? [= <- <- _]; exact L|]. split; [eauto|].
      intros N. exfalso. exact (N _ _ L).
    + destruct Xs as (Ns & Xs). destruct (l_err l) eqn:Ee.
      * assert (F : is_u32 (rfc6791v4_find st u (l_hop l)) /\ mask4 c (rfc6791v4_find st u (l_hop l))).
        { unfold rfc6791v4_find, mask4. destruct V as (_ & _ & _ & _ & _ & <- & _). destruct W as (_ & _ & _ & W & _).
          destruct (t_6791v4 c) as [p|]; [|split; [unfold is_u32; lia|reflexivity]].
          destruct (W p eq_refl) as (W1 & W2).
          assert (Un : is_u32 (if s_random st then u_n u else l_hop l))
            by (destruct (s_random st); [exact Hu|unfold is_u8, is_u32 in *; lia]).
          pose proof (C48_rfc6791v4_in_pool p _ W1 W2 Un) as [Q1 Q2]. split; [exact Q1|split; [exact Q1|exact Q2]]. }
        destruct F as [Fu Fm]. destruct (Mk _ AXM_RFC6791 Fu) as (b & ->). cbn [bind].
        assert (L : leg64 c l (rfc6791v4_find st u (l_hop l)) d4).
        { split; [exact D|]. rewrite Ee. split; [exact Ns|right; auto]. }
        eexists. split; [reflexivity|]. split; [intros ? ? ? [= <- <- _]; exact L|]. split; [eauto|].
        intros N. exfalso. exact (N _ _ L).
      * eexists. split; [reflexivity|]. split; [discriminate|]. split; [|eauto].
        intros (s & d & _ & X). rewrite Ee in X. destruct X as (_ & h & X & _). exfalso. exact (Xs _ _ X).
    + eexists. split; [reflexivity|]. split; [discriminate|]. split; [|eauto].
      intros (s & d & _ & X). exfalso. destruct (l_err l); cbn [negb] in Xs.
      * destruct X as (X & _). destruct Xs as [Xs|(Xs & _)]; [exact (X Xs)|discriminate].
      * destruct X as (X & h & S & P). destruct Xs as [Xs|(_ & a & h' & S' & P')]; [exact (X Xs)|].
        destruct (stands_for_unique st c (l_src l) s h a h' V W Hs S S') as [-> ->]. exact (P' P).
    + destruct Xs.
  - destruct Xd as (_ & Xd). eexists. split; [reflexivity|]. split; [discriminate|]. split; [|eauto].
    intros (s & d & (_ & h & X & _) & _). exfalso. exact (Xd _ _ X).
  - eexists. split; [reflexivity|]. split; [discriminate|]. split; [|eauto].
    intros (s & d & (X & h & S & P) & _). exfalso. destruct Xd as [Xd|(_ & a & h' & S' & P')]; [exact (X Xd)|].
    destruct (stands_for_unique st c (l_dst l) d h a h' V W Hd S S') as [-> ->]. exact (P' P).
  - destruct Xd.
Qed.

Lemma xl46_inv : forall st c a4 a6 eam h, view st c -> wf_site c -> is_u32 a4 ->
  represents (sitef eam c) a6 a4 h -> permitted c a4 h ->
  addrxlat_siit46 st a4 eam true = Ok (XContinue a6 (meth h)).
Proof. intros st c a4 a6 eam h V W H4 R (P1 & P2 & P3). apply x46 with (c := c); auto. Qed.

Lemma mask6_find : forall st c u, view st c -> wf_site c -> wt_luck u -> mask6 c (rfc6791v6_find st u).
Proof.
  intros st c u V W (_ & Hb & Hb'). unfold rfc6791v6_find, mask6. destruct V as (_ & _ & _ & _ & _ & _ & <-).
  destruct W as (_ & _ & _ & _ & W). destruct (t_6791v6 c) as [p|]; [|reflexivity].
  destruct (W p eq_refl) as (W1 & W2). exact (C48_rfc6791v6_in_pool p _ _ W1 W2 Hb Hb').
Qed.

(** IPv4 to IPv6, outside of hairpinning: the same, except that the source of
    an ICMP error must not be denylisted, unless a mapping covers it.  (See
    [C68_4to6_refuted] for those.) *)
Theorem C68_4to6_partial : forall st c u inner l inner_dst, view st c -> wf_site c -> wt_leg4 l -> wt_luck u ->
  s_mode st <> EHM_SIMPLE ->
  (l_err l = true -> denylisted c (l_src l) -> exists e, In e (t_tbl c) /\ in4 (e_p4 e) (l_src l)) ->
  exists o, translate_addrs46_siit st u inner l inner_dst false = Ok o /\
    (forall s6 d6, o = Continue (s6, d6) -> leg46 c l s6 d6) /\
    ((exists s6 d6, leg46 c l s6 d6) -> exists s6 d6, o = Continue (s6, d6)) /\
    ((forall s6 d6, ~ leg46 c l s6 d6) -> exists s, o = Untranslatable s).
Proof.
  intros st c u inner l idst V W (Hs & Hd & _) Hu Hm Hx. unfold translate_addrs46_siit.
  apply Z.eqb_neq in Hm. rewrite Hm. cbn [orb]. unfold disable_dst_eam, disable_src_eam. cbn [andb negb orb].
  destruct (one46 st c (l_dst l) true true V W Hd) as (vd & Evd & Xd). rewrite Evd. cbn [bind].
  assert (Fd : forall d6, xl46 c (l_dst l) d6 -> exists h, vd = XContinue d6 (meth h)).
  { intros d6 (h & R & P). rewrite (xl46_inv st c _ _ true h V W Hd R P) in Evd. injection Evd as <-. eauto. }
  destruct vd as [d6 md| | |].
  - destruct Xd as (_ & hd & -> & Rd & _ & Pd). assert (D : xl46 c (l_dst l) d6) by (exists hd; auto).
    destruct (one46 st c (l_src l) true (negb (l_err l)) V W Hs) as (vs & Evs & Xs). rewrite Evs. cbn [bind].
    destruct vs as [s6 ms| | |].
    + destruct Xs as (_ & hs & -> & Rs & Ds & Ps).
      assert (L : leg46 c l s6 d6).
      { split; [exact D|]. destruct (l_err l); [left; eauto|]. exists hs. split; [exact Rs|apply Ps; reflexivity]. }
      eexists. split; [reflexivity|]. split; [intros ? ? [= <- <-]; exact L|]. split; [eauto|]. intros N. exfalso. exact (N _ _ L).
    + destruct Xs as (Xs & _). destruct (l_err l) eqn:Ee.
      * assert (L : leg46 c l (rfc6791v6_find st u) d6).
        { split; [exact D|]. rewrite Ee. right. split; [exact Xs|]. eapply mask6_find; eauto. }
        eexists. split; [reflexivity|]. split; [intros ? ? [= <- <-]; exact L|]. split; [eauto|]. intros N. exfalso. exact (N _ _ L).
      * eexists. split; [reflexivity|]. split; [discriminate|]. split; [|eauto].
        intros (s & d & _ & X). rewrite Ee in X. destruct X as (h & R & _). exfalso. exact (Xs _ _ R).
    + eexists. split; [reflexivity|]. split; [discriminate|]. split; [|eauto].
      intros (s & d & _ & X). exfalso. destruct (l_err l); cbn [negb] in Xs, Evs.
      * destruct Xs as [(? & _)|(Xd & Xn)]; [discriminate|]. destruct (Hx eq_refl Xd) as (e & He & I). exact (Xn e He I).
      * destruct X as (h & R & P). rewrite (xl46_inv st c _ _ true h V W Hs R P) in Evs. discriminate.
    + destruct Xs.
  - eexists. split; [reflexivity|]. split; [discriminate|]. split; [|eauto].
    intros (s & d & X & _). apply Fd in X. destruct X. discriminate.
  - eexists. split; [reflexivity|]. split; [discriminate|]. split; [|eauto].
    intros (s & d & X & _). apply Fd in X. destruct X. discriminate.
  - destruct Xd.
Qed.

(** A documented exemption that the code does not honour: the source of an
    ICMPv4 error is refused when it is denylisted, although the documentation
    says such sources "are translated regardless of denylist4". *)
Definition site0 : site := Site [] [P4 0xc6336400 24] [] (Some (P6 0x0064ff9b000000000000000000000000 96)) None None.
Definition st0 (m : Z) : siit := Siit eamt_alloc (t_deny site0) (t_ifas site0) (t_pool6 site0) m None None false.
Definition luck0 : luck := Luck 0 (fun _ => 0) 0 true (Some 0xcb007101).

Lemma view0 : forall m, view (st0 m) site0.
Proof.
  intros m. split; [exists [], []; split; [exact Logic.I|reflexivity]|].
  split; [vm_compute; reflexivity|]. repeat split.
Qed.
Lemma wf0 : wf_site site0.
Proof.
  split; [intros p [<-|[]]; split; [split; unfold is_u32, is_u8; cbn; lia|vm_compute; reflexivity]|].
  split; [intros i []|]. split; [|split; intros p [=]].
  intros p [= <-]. split; [split; unfold is_u128, is_u8; cbn; lia|exists false; vm_compute; reflexivity].
Qed.
Lemma luck0_wt : wt_luck luck0.
Proof. split; [unfold is_u32; cbn; lia|]. split; [intros i|]; unfold is_u8; cbn; lia. Qed.

Theorem C68_4to6_refuted : exists st c u l s6 d6, view st c /\ wf_site c /\ wt_leg4 l /\ wt_luck u /\
  s_mode st = EHM_INTRINSIC /\ l_err l = true /\ leg46 c l s6 d6 /\
  translate_addrs46_siit st u false l (l_src l) false = Ok (Untranslatable JSTAT46_SRC).
Proof.
  exists (st0 EHM_INTRINSIC), site0, luck0, (Leg 0xc6336405 0xc0000201 true 64),
    0x0064ff9b0000000000000000c6336405, 0x0064ff9b0000000000000000c0000201.
  split; [apply view0|]. split; [apply wf0|]. split; [split; [|split]; unfold is_u32, is_u8; cbn; lia|].
  split; [apply luck0_wt|]. split; [reflexivity|]. split; [reflexivity|]. split; [|vm_compute; reflexivity].
  assert (R : forall a6 a4, rfc6052_4to6 (P6 0x0064ff9b000000000000000000000000 96) a4 = Some a6 ->
    represents site0 a6 a4 (ByPool6 (P6 0x0064ff9b000000000000000000000000 96))).
  { intros a6 a4 E. apply RpPool6; [intros e []|reflexivity|]. apply (pool46_value _ false); [vm_compute; reflexivity|exact E]. }
  split.
  - eexists. split; [apply R; vm_compute; reflexivity|]. cbn [l_dst].
    split; [unfold subnet_scoped; lia|]. split; [intros (i & [] & _)|].
    intros p _ (q & [<-|[]] & I). vm_compute in I. discriminate.
  - cbn [l_err]. left. eexists. apply R. vm_compute. reflexivity.
Qed.

(** The documentation also lists addresses that Jool "will refuse to translate,
    regardless of denylist4".  As the source of an ICMP error, they are
    translated, in both directions. *)
Theorem C68_scope_refuted : exists st c u l6 l4 s4 d4 s6 d6 h, view st c /\ wf_site c /\ wt_luck u /\
  wt_leg6 l6 /\ translate_addrs64_siit st u false l6 false = Ok (Continue (s4, d4, h)) /\ subnet_scoped s4 /\
  wt_leg4 l4 /\ translate_addrs46_siit st u false l4 (l_dst l4) false = Ok (Continue (s6, d6)) /\ subnet_scoped (l_src l4).
Proof.
  exists (st0 EHM_INTRINSIC), site0, luck0, (Leg 0x0064ff9b00000000000000007f000001 0x0064ff9b0000000000000000c0000201 true 64),
    (Leg 0x7f000001 0xc0000201 true 64), 0x7f000001, 0xc0000201,
    0x0064ff9b00000000000000007f000001, 0x0064ff9b0000000000000000c0000201, false.
  split; [apply view0|]. split; [apply wf0|]. split; [apply luck0_wt|].
  split; [split; [|split]; unfold is_u128, is_u8; cbn; lia|]. split; [vm_compute; reflexivity|]. split; [right; left; lia|].
  split; [split; [|split]; unfold is_u32, is_u8; cbn; lia|]. split; [vm_compute; reflexivity|]. right; left; cbn; lia.
Qed.

(** ** C49: the counter of a refused packet names the address at fault *)

(** IPv4 to IPv6: JSTAT46_DST exactly when the destination is at fault. *)
Theorem C49_4to6_partial : forall st c u inner l inner_dst s, view st c -> wf_site c -> wt_leg4 l ->
  s_mode st <> EHM_SIMPLE ->
  translate_addrs46_siit st u inner l inner_dst false = Ok (Untranslatable s) ->
  (s = JSTAT46_DST /\ forall d6, ~ xl46 c (l_dst l) d6) \/
  (s = JSTAT46_SRC /\ (exists d6, xl46 c (l_dst l) d6) /\ forall s6, ~ xl46 c (l_src l) s6).
Proof.
  intros st c u inner l idst s V W (Hs & Hd & _) Hm. unfold translate_addrs46_siit.
  apply Z.eqb_neq in Hm. rewrite Hm. cbn [orb]. unfold disable_dst_eam, disable_src_eam. cbn [andb negb orb].
  assert (F : forall a4 v, is_u32 a4 -> addrxlat_siit46 st a4 true true = Ok v -> (forall a m, v <> XContinue a m) ->
    forall a6, ~ xl46 c a4 a6).
  { intros a4 v H4 E N a6 (h & R & P). rewrite (xl46_inv st c _ _ true h V W H4 R P) in E. injection E as <-. exact (N _ _ eq_refl). }
  destruct (one46 st c (l_dst l) true true V W Hd) as (vd & Evd & Xd). rewrite Evd. cbn [bind].
  destruct vd as [d6 md| | |].
  2,3: intros [= <-]; left; split; [reflexivity|]; eapply F; eauto; discriminate.
  2: destruct Xd.
  destruct Xd as (_ & hd & -> & Rd & _ & Pd). intros H. right.
  assert (D : exists d6, xl46 c (l_dst l) d6) by (exists d6, hd; auto).
  destruct (one46 st c (l_src l) true (negb (l_err l)) V W Hs) as (vs & Evs & Xs). rewrite Evs in H. cbn [bind] in H.
  destruct vs as [s6 ms| | |]; [discriminate| | |destruct Xs].
  - destruct Xs as (Xs & _). destruct (l_err l); [discriminate|]. injection H as <-. split; [reflexivity|]. split; [exact D|].
    intros s6 (h & R & _). exact (Xs _ _ R).
  - injection H as <-. split; [reflexivity|]. split; [exact D|]. intros s6 (h & R & P1 & P2 & P3).
    destruct Xs as [(_ & Xs)|(Xs & Xn)]; [tauto|].
    destruct R as [e He I4|p N Hp L]; [exact (Xn e He I4)|exact (P3 p eq_refl Xs)].
Qed.

(** IPv6 to IPv4: the counters are swapped.  A packet whose source is fine and
    whose destination has no translation counts as JSTAT64_SRC ("IPv6 packet's
    source address did not match..."), and the other way around. *)
Theorem C49_6to4_refuted : exists st c u l l', view st c /\ wf_site c /\ wt_luck u /\
  wt_leg6 l /\ (exists s4, xl64 c (l_src l) s4) /\ (forall d4, ~ xl64 c (l_dst l) d4) /\
  translate_addrs64_siit st u false l false = Ok (Untranslatable JSTAT64_SRC) /\
  wt_leg6 l' /\ (exists d4, xl64 c (l_dst l') d4) /\ (forall s4, ~ xl64 c (l_src l') s4) /\
  translate_addrs64_siit st u false l' false = Ok (Untranslatable JSTAT64_DST).
Proof.
  assert (A : xl64 site0 0x0064ff9b0000000000000000c0000201 0xc0000201).
  { split; [unfold loopback6; lia|]. exists (ByPool6 (P6 0x0064ff9b000000000000000000000000 96)).
    assert (X : in6 (P6 0x0064ff9b000000000000000000000000 96) 0x0064ff9b0000000000000000c0000201 /\ is_u32 0xc0000201 /\
      (forall i, 0 <= i < 4 -> octet 4 0xc0000201 (Z.to_nat i) = octet 16 0x0064ff9b0000000000000000c0000201 (Z.to_nat (rfc6052_pos 96 i)))).
    { apply (pool64_value (P6 0x0064ff9b000000000000000000000000 96) false); [split; unfold is_u128, is_u8; cbn; lia|vm_compute; reflexivity|unfold is_u128; lia|vm_compute; reflexivity]. }
    destruct X as (X1 & X2 & X3). split; [apply SfPool6; auto; intros e []|].
    split; [unfold subnet_scoped; lia|]. split; [intros (i & [] & _)|].
    intros p _ (q & [<-|[]] & I). vm_compute in I. discriminate. }
  assert (N : forall a4, ~ xl64 site0 0x20010db8000000000000000000000001 a4).
  { intros a4 (_ & h & S & _). destruct S as [e []|p _ Hp I]. injection Hp as <-. vm_compute in I. discriminate. }
  exists (st0 EHM_INTRINSIC), site0, luck0, (Leg 0x0064ff9b0000000000000000c0000201 0x20010db8000000000000000000000001 false 64),
    (Leg 0x20010db8000000000000000000000001 0x0064ff9b0000000000000000c0000201 false 64).
  split; [apply view0|]. split; [apply wf0|]. split; [apply luck0_wt|].
  split; [split; [|split]; unfold is_u128, is_u8; cbn; lia|]. split; [eexists; exact A|]. split; [exact N|].
  split; [vm_compute; reflexivity|].
  split; [split; [|split]; unfold is_u128, is_u8; cbn; lia|]. split; [eexists; exact A|]. split; [exact N|].
  vm_compute; reflexivity.
Qed.

(** What does hold: the two counters tell the two cases apart. *)
Theorem C49_6to4_partial : forall st c u inner l hairpin s, view st c -> wf_site c -> wt_leg6 l ->
  translate_addrs64_siit st u inner l hairpin = Ok (Untranslatable s) ->
  (s = JSTAT64_SRC /\ forall d4, ~ xl64 c (l_dst l) d4) \/
  (s = JSTAT64_DST /\ (exists d4, xl64 c (l_dst l) d4) /\ forall s4, ~ xl64 c (l_src l) s4).
Proof.
  intros st c u inner l hp s V W (Hs & Hd & _). unfold translate_addrs64_siit.
  assert (F : forall a6 v, is_u128 a6 -> addrxlat_siit64 st a6 true = Ok v -> (forall a m, v <> XContinue a m) ->
    forall a4, ~ xl64 c a6 a4).
  { intros a6 v H6 E N a4 (Nl & h & S & P). rewrite (x64 st c a6 a4 h true V W H6 Nl S (fun _ => P)) in E. injection E as <-. exact (N _ _ eq_refl). }
  destruct (one64 st c (l_dst l) true V W Hd) as (vd & Evd & Xd). rewrite Evd. cbn [bind].
  destruct vd as [d4 md| | |].
  2,3: intros [= <-]; left; split; [reflexivity|]; eapply F; eauto; discriminate.
  2: destruct Xd.
  destruct Xd as (Nd & Ud & hd & -> & Sd & Pd). intros H. right.
  assert (D : exists d4, xl64 c (l_dst l) d4) by (exists d4; split; eauto).
  destruct (one64 st c (l_src l) (negb (l_err l)) V W Hs) as (vs & Evs & Xs). rewrite Evs in H. cbn [bind] in H.
  destruct vs as [s4 ms| | |]; [| | |destruct Xs].
  - destruct (mark_hairpin64 st inner l s4 ms d4 (meth hd) hp); discriminate.
  - destruct Xs as (_ & Xs). destruct (l_err l).
    + destruct (mark_hairpin64 st inner l (rfc6791v4_find st u (l_hop l)) AXM_RFC6791 d4 (meth hd) hp); discriminate.
    + injection H as <-. split; [reflexivity|]. split; [exact D|]. intros s4 (_ & h & S & _). exact (Xs _ _ S).
  - injection H as <-. split; [reflexivity|]. split; [exact D|]. intros s4 (Nl & h & S & P).
    destruct Xs as [Xs|(_ & a & h' & S' & P')]; [exact (Nl Xs)|].
    destruct (stands_for_unique st c (l_src l) s4 h a h' V W Hs S S') as [-> ->]. exact (P' P).
Qed.

(** ** C69: the address query answers what packets get *)

Lemma finish64 : forall (r : res bool) (s d : Z) x, (let! h := r in Ok (Continue (s, d, h))) = Ok x ->
  exists h, x = Continue (s, d, h).
Proof. intros [b| |] s d x; cbn [bind]; [intros [= <-]; eauto|discriminate|discriminate]. Qed.

(** IPv6 to IPv4: for every instance, a translated packet carries the answer of
    the query, in the place of its destination and (unless it is an ICMP error)
    of its source; and a refusal means that no such packet is translated. *)
Theorem C69_6to4 : forall st u inner l hairpin o, translate_addrs64_siit st u inner l hairpin = Ok o ->
  (forall s4 d4 h, o = Continue (s4, d4, h) ->
     (exists m, address_query64 st (l_dst l) = Ok (Some (d4, m))) /\
     (l_err l = false -> exists m, address_query64 st (l_src l) = Ok (Some (s4, m)))) /\
  (address_query64 st (l_dst l) = Ok None \/ (l_err l = false /\ address_query64 st (l_src l) = Ok None) ->
     forall x, o <> Continue x).
Proof.
  intros st u inner l hp o. unfold translate_addrs64_siit, address_query64.
  destruct (addrxlat_siit64 st (l_dst l) true) as [vd| |]; cbn [bind]; try discriminate.
  destruct vd as [d4 md| | |]; try (intros [= <-]; split; [discriminate|discriminate]).
  destruct (l_err l); cbn [negb].
  - destruct (addrxlat_siit64 st (l_src l) false) as [vs| |]; cbn [bind]; try discriminate.
    destruct vs as [s4 ms| | |]; intros H; try (injection H as <-; split; [discriminate|discriminate]);
      apply finish64 in H; destruct H as (h & ->);
      (split; [intros ? ? ? [= <- <- _]; split; [eauto|discriminate]|intros [X|[X _]]; discriminate]).
  - destruct (addrxlat_siit64 st (l_src l) true) as [vs| |]; cbn [bind]; try discriminate.
    destruct vs as [s4 ms| | |]; intros H; try (injection H as <-; split; [discriminate|discriminate]).
    apply finish64 in H. destruct H as (h & ->).
    split; [intros ? ? ? [= <- <- _]; split; eauto|intros [X|[_ X]]; discriminate].
Qed.

(** IPv4 to IPv6, unless the packet hairpins or the hairpinning mode is
    "simple". *)
Theorem C69_4to6_partial : forall st u inner l inner_dst o, s_mode st <> EHM_SIMPLE ->
  translate_addrs46_siit st u inner l inner_dst false = Ok o ->
  (forall s6 d6, o = Continue (s6, d6) ->
     (exists m, address_query46 st (l_dst l) = Ok (Some (d6, m))) /\
     (l_err l = false -> exists m, address_query46 st (l_src l) = Ok (Some (s6, m)))) /\
  (address_query46 st (l_dst l) = Ok None \/ (l_err l = false /\ address_query46 st (l_src l) = Ok None) ->
     forall x, o <> Continue x).
Proof.
  intros st u inner l idst o Hm. unfold translate_addrs46_siit, address_query46.
  apply Z.eqb_neq in Hm. rewrite Hm. cbn [orb]. unfold disable_dst_eam, disable_src_eam. cbn [andb negb orb].
  destruct (addrxlat_siit46 st (l_dst l) true true) as [vd| |]; cbn [bind]; try discriminate.
  destruct vd as [d6 md| | |]; try (intros [= <-]; split; [discriminate|discriminate]).
  destruct (l_err l); cbn [negb].
  - destruct (addrxlat_siit46 st (l_src l) true false) as [vs| |]; cbn [bind]; try discriminate.
    destruct vs as [s6 ms| | |]; intros H; injection H as <-; try (split; [discriminate|discriminate]);
      (split; [intros ? ? [= <- <-]; split; [eauto|discriminate]|intros [X|[X _]]; discriminate]).
  - destruct (addrxlat_siit46 st (l_src l) true true) as [vs| |]; cbn [bind]; try discriminate.
    destruct vs as [s6 ms| | |]; intros H; injection H as <-; try (split; [discriminate|discriminate]).
    split; [intros ? ? [= <- <-]; split; eauto|intros [X|[_ X]]; discriminate].
Qed.

(** What the query answers, by the operator's view. *)
Theorem C69_answer_partial : forall st c, view st c -> wf_site c ->
  (forall a6, is_u128 a6 ->
    (forall a4, (exists m, address_query64 st a6 = Ok (Some (a4, m))) <-> xl64 c a6 a4) /\
    (address_query64 st a6 = Ok None <-> forall a4, ~ xl64 c a6 a4)) /\
  (forall a4, is_u32 a4 ->
    (forall a6, (exists m, address_query46 st a4 = Ok (Some (a6, m))) <-> xl46 c a4 a6) /\
    (address_query46 st a4 = Ok None <-> forall a6, ~ xl46 c a4 a6)).
Proof.
  intros st c V W. split.
  - intros a6 H6. unfold address_query64. destruct (one64 st c a6 true V W H6) as (v & E & X).
    assert (F : forall a4, xl64 c a6 a4 -> exists m, v = XContinue a4 m).
    { intros a4 (N & h & S & P). rewrite (x64 st c a6 a4 h true V W H6 N S (fun _ => P)) in E. injection E as <-. eauto. }
    rewrite E. cbn [bind]. destruct v as [a m| | |]; [| | |destruct X].
    + destruct X as (N & _ & h & -> & S & P). assert (D : xl64 c a6 a) by (split; eauto). split.
      * intros a4. split; [intros (m & [= <- _]); exact D|]. intros D'. destruct (F a4 D') as (m & [= -> _]). eauto.
      * split; [discriminate|]. intros Z. exfalso. exact (Z a D).
    + split; [intros a4; split; [intros (m & [=])|intros D; destruct (F a4 D); discriminate]|].
      split; [intros _ a4 D; destruct (F a4 D); discriminate|reflexivity].
    + split; [intros a4; split; [intros (m & [=])|intros D; destruct (F a4 D); discriminate]|].
      split; [intros _ a4 D; destruct (F a4 D); discriminate|reflexivity].
  - intros a4 H4. unfold address_query46. destruct (one46 st c a4 true true V W H4) as (v & E & X).
    assert (F : forall a6, xl46 c a4 a6 -> exists m, v = XContinue a6 m).
    { intros a6 (h & R & P). rewrite (xl46_inv st c _ _ true h V W H4 R P) in E. injection E as <-. eauto. }
    rewrite E. cbn [bind]. destruct v as [a m| | |]; [| | |destruct X].
    + destruct X as (_ & h & -> & R & _ & P). assert (D : xl46 c a4 a) by (exists h; auto). split.
      * intros a6. split; [intros (m & [= <- _]); exact D|]. intros D'. destruct (F a6 D') as (m & [= -> _]). eauto.
      * split; [discriminate|]. intros Z. exfalso. exact (Z a D).
    + split; [intros a6; split; [intros (m & [=])|intros D; destruct (F a6 D); discriminate]|].
      split; [intros _ a6 D; destruct (F a6 D); discriminate|reflexivity].
    + split; [intros a6; split; [intros (m & [=])|intros D; destruct (F a6 D); discriminate]|].
      split; [intros _ a6 D; destruct (F a6 D); discriminate|reflexivity].
Qed.

(** ** A site with mappings, for the examples *)
Definition mapA : eam := Eam (P6 0x20010db8000a00000000000000000000 64) (P4 0xc0000201 32).
Definition mapB : eam := Eam (P6 0x20010db8000b00000000000000000000 120) (P4 0xc0000300 24).
Definition ops1 : list eam_op := [EAdd mapA false (AMem true true true true true); EAdd mapB false (AMem true true true true true)].
Definition eamt1 : eamt := match eam_run eamt_alloc ops1 with Ok (_, t) => t | _ => eamt_alloc end.
Definition pool1 : prefix6 := P6 0x0064ff9b000000000000000000000000 96.
Definition site1 : site := Site [mapB; mapA] [P4 0xc6336400 24] [IfAddr 0xcb007101 0xffffff00 24] (Some pool1)
  (Some (P4 0xcb007200 24)) None.
Definition st1 (m : Z) : siit := Siit eamt1 (t_deny site1) (t_ifas site1) (t_pool6 site1) m (t_6791v4 site1) None false.

Definition A4 : Z := 0xc0000201.
Definition A6 : Z := 0x20010db8000a00000000000000000000.
Definition PA : Z := 0x0064ff9b0000000000000000c0000201.
Definition B4 : Z := 0xc0000307.
Definition B6 : Z := 0x20010db8000b00000000000000000007.
Definition PB : Z := 0x0064ff9b0000000000000000c0000307.
Definition X4 : Z := 0xcb007305.
Definition PX : Z := 0x0064ff9b0000000000000000cb007305.

Lemma tame1 : tame_history [] ops1.
Proof.
  assert (WA : wt_eam mapA) by (split; split; unfold is_u128, is_u32, is_u8; cbn; lia).
  assert (WB : wt_eam mapB) by (split; split; unfold is_u128, is_u32, is_u8; cbn; lia).
  cbn [tame_history ops1]. split; [exact WA|]. split; [intros e []|]. intros r tbl H. split; [exact WB|].
  split; [|intros; exact Logic.I].
  assert (T : tbl = [mapA] \/ tbl = []).
  { inversion H; subst; auto.
    - left. match goal with P : Permutation _ _ |- _ => apply Permutation_length_1_inv in P; exact P end. }
  intros e He. destruct T as [-> | ->]; [|destruct He]. destruct He as [<-|[]].
  unfold wider6, wider4. cbn. split; [intros [? ?]; lia|]. split; [intros [? ?]|discriminate].
  unfold in4, in_prefix in *. cbn in *. discriminate.
Qed.

Lemma view1 : forall m, view (st1 m) site1.
Proof.
  intros m. split.
  - exists ops1, [OK; OK]. split; [apply tame1|vm_compute; reflexivity].
  - split; [vm_compute; reflexivity|]. repeat split.
Qed.
Lemma wf1 : wf_site site1.
Proof.
  split; [intros p [<-|[]]; split; [split; unfold is_u32, is_u8; cbn; lia|vm_compute; reflexivity]|].
  split; [intros i [<-|[]]; split; [unfold is_u32; cbn; lia|split; cbn; lia]|]. split; [|split; intros p].
  - intros p [= <-]. split; [split; unfold is_u128, is_u8; cbn; lia|exists false; vm_compute; reflexivity].
  - intros [= <-]. split; [split; unfold is_u32, is_u8; cbn; lia|vm_compute; reflexivity].
  - discriminate.
Qed.
Lemma clear1 : pool6_clear site1.
Proof.
  intros p e [= <-] He (a & Ha & H1 & H2). unfold in6, in_prefix, pool1 in *. cbn [p6_addr p6_len] in *.
  change (128 - 96) with 32 in H1. unfold is_u128 in Ha.
  assert (a = 0x0064ff9b0000000000000000 * 2^32 + a mod 2^32).
  { pose proof (Z.div_mod a (2^32) ltac:(lia)). rewrite H1 in H. change (0x0064ff9b000000000000000000000000 / 2^32) with 0x0064ff9b0000000000000000 in H. lia. }
  pose proof (Z.mod_pos_bound a (2^32) ltac:(lia)).
  destruct He as [<-|[<-|[]]]; cbn [mapA mapB e_p6 p6_addr p6_len] in H2.
  - change (128 - 120) with 8 in H2. change (0x20010db8000b00000000000000000000 / 2^8) with 0x20010db8000b000000000000000000 in H2.
    change (2^8) with 256 in *. change (2^32) with 4294967296 in *. lia.
  - change (128 - 64) with 64 in H2. change (0x20010db8000a00000000000000000000 / 2^64) with 0x20010db8000a0000 in H2.
    change (2^64) with 18446744073709551616 in *. change (2^32) with 4294967296 in *. lia.
Qed.

Lemma repA : represents site1 A6 A4 (ByEam mapA).
Proof. apply RpEam; [right; left; reflexivity|vm_compute; reflexivity|unfold is_u128; vm_compute; split; congruence|vm_compute; reflexivity|vm_compute; reflexivity]. Qed.
Lemma repB : represents site1 B6 B4 (ByEam mapB).
Proof. apply RpEam; [left; reflexivity|vm_compute; reflexivity|unfold is_u128; vm_compute; split; congruence|vm_compute; reflexivity|vm_compute; reflexivity]. Qed.
Lemma repU : forall a6 a4, rfc6052_4to6 pool1 a4 = Some a6 -> represents (unmapped site1) a6 a4 (ByPool6 pool1).
Proof. intros a6 a4 E. apply RpPool6; [intros e []|reflexivity|]. apply (pool46_value _ false); [vm_compute; reflexivity|exact E]. Qed.
Lemma repX : represents site1 PX X4 (ByPool6 pool1).
Proof.
  apply RpPool6; [|reflexivity|apply (pool46_value _ false); vm_compute; reflexivity].
  intros e [<-|[<-|[]]] I; vm_compute in I; discriminate.
Qed.
Lemma ok1 : forall a h, is_u32 a -> negb (addr4_is_scope_subnet a) && negb (interface_contains (t_ifas site1) a) &&
  negb (denylist4_contains (t_deny site1) a) = true -> permitted site1 a h.
Proof.
  intros a h Ha H. apply andb_true_iff in H. destruct H as [H H3]. apply andb_true_iff in H. destruct H as [H1 H2].
  apply negb_true_iff in H1, H2, H3.
  split; [intros X; apply scope_addr in X; auto; congruence|].
  split; [intros X; apply own_spec in X; auto; [congruence|apply wf1]|].
  intros p _ X. apply deny_contains in X; auto; [congruence|apply wf1].
Qed.

(** In "simple" mode, the query says that A4 translates to A6, but an ordinary
    IPv4 packet from A4 leaves with pool6's version of it. *)
Theorem C69_4to6_refuted : exists st c u l s6 d6 q m, view st c /\ wf_site c /\ wt_leg4 l /\ wt_luck u /\
  s_mode st = EHM_SIMPLE /\ l_err l = false /\
  translate_addrs46_siit st u false l 0 false = Ok (Continue (s6, d6)) /\
  address_query46 st (l_src l) = Ok (Some (q, m)) /\ q <> s6.
Proof.
  exists (st1 EHM_SIMPLE), site1, luck0, (Leg A4 X4 false 64), PA, PX, A6, (AXM_EAMT mapA).
  split; [apply view1|]. split; [apply wf1|]. split; [split; [|split]; unfold is_u32, is_u8, A4, X4; cbn; lia|].
  split; [apply luck0_wt|]. split; [reflexivity|]. split; [reflexivity|].
  split; [vm_compute; reflexivity|]. split; [vm_compute; reflexivity|]. discriminate.
Qed.

(** ** C70: hairpinning (RFC 7757 section 4) *)

(** Two IPv6 nodes, A6 and B6, whose mappings give them the IPv4 addresses a4
    and b4; PA and PB are the pool6 versions of a4 and b4. *)
Definition mapped_pair (c : site) (a4 A6 PA b4 B6 PB : Z) : Prop :=
  is_u32 a4 /\ is_u32 b4 /\ A6 <> loopback6 /\ B6 <> loopback6 /\
  (exists e, represents c A6 a4 (ByEam e)) /\ (exists e, represents c B6 b4 (ByEam e)) /\
  (exists p, represents (unmapped c) PA a4 (ByPool6 p) /\ represents (unmapped c) PB b4 (ByPool6 p) /\
             permitted c a4 (ByPool6 p) /\ permitted c b4 (ByPool6 p)).

Definition facts (st : siit) (a4 A6 PA : Z) : Prop :=
  (exists e, forall chk, addrxlat_siit64 st A6 chk = Ok (XContinue a4 (AXM_EAMT e))) /\
  (exists p, forall chk, addrxlat_siit64 st PA chk = Ok (XContinue a4 (AXM_RFC6052 p))) /\
  (exists e, forall chk, addrxlat_siit46 st a4 true chk = Ok (XContinue A6 (AXM_EAMT e))) /\
  (exists p, forall chk, addrxlat_siit46 st a4 false chk = Ok (XContinue PA (AXM_RFC6052 p))) /\
  eamt_contains4 (s_eamt st) a4 = Ok true /\ (a4 =? 0) = false /\ (PA =? 0) = false.

Lemma pair_facts : forall st c a4 A6 PA p e, view st c -> wf_site c -> pool6_clear c -> is_u32 a4 -> A6 <> loopback6 ->
  represents c A6 a4 (ByEam e) -> represents (unmapped c) PA a4 (ByPool6 p) -> permitted c a4 (ByPool6 p) ->
  facts st a4 A6 PA.
Proof.
  intros st c a4 A6 PA p e V W C H4 N R Ru P.
  assert (Ep : t_pool6 c = Some p) by (inversion Ru; subst; auto).
  assert (L : rfc6052_layout (p6_addr p) (p6_len p) a4 PA) by (inversion Ru; subst; auto).
  assert (He : In e (t_tbl c) /\ in4 (e_p4 e) a4) by (inversion R; subst; auto).
  pose proof P as (P1 & P2 & P3).
  destruct (pool_small c p a4 PA W Ep H4 L P1) as [Z0 Z1].
  assert (Pe : permitted c a4 (ByEam e)) by (split; [auto|split; [auto|intros q [=]]]).
  destruct (rep_unmapped_stands c p PA a4 _ W C H4 Ep Ru) as [_ Su].
  split; [exists e; intros chk; apply (x64 st c A6 a4 (ByEam e)); auto; [eapply rep_u128; eauto|eapply rep_stands; eauto]|].
  split; [exists p; intros chk; apply (x64 st c PA a4 (ByPool6 p)); auto; eapply rep_u128; eauto|].
  split; [exists e; intros chk; apply (x46 st c a4 A6 (ByEam e)); auto; intros q [=]|].
  split; [exists p; intros chk; apply (x46 st c a4 PA (ByPool6 p)); auto|].
  split; [|split; apply Z.eqb_neq; auto].
  - destruct (contains4 st c a4 V H4) as (b & -> & B). f_equal. apply B. eauto.
  - intros ->. apply P1. left. lia.
Qed.

Lemma pair_both : forall st c a4 A6 PA b4 B6 PB, view st c -> wf_site c -> pool6_clear c ->
  mapped_pair c a4 A6 PA b4 B6 PB -> facts st a4 A6 PA /\ facts st b4 B6 PB.
Proof.
  intros st c a4 A6 PA b4 B6 PB V W C (Ha & Hb & Na & Nb & (ea & Ra) & (eb & Rb) & (p & Ua & Ub & Pa & Pb)).
  split; eapply pair_facts; eauto.
Qed.

Lemma t64 : forall st u inner s d err hop hp s4 d4 ms md h,
  addrxlat_siit64 st d true = Ok (XContinue d4 md) -> addrxlat_siit64 st s (negb err) = Ok (XContinue s4 ms) ->
  mark_hairpin64 st inner (Leg s d err hop) s4 ms d4 md hp = Ok h ->
  translate_addrs64_siit st u inner (Leg s d err hop) hp = Ok (Continue (s4, d4, h)).
Proof.
  intros st u inner s d err hop hp s4 d4 ms md h Hd Hs Hm. unfold translate_addrs64_siit. cbn [l_src l_dst l_err l_hop].
  rewrite Hd. cbn [bind]. rewrite Hs. cbn [bind]. rewrite Hm. reflexivity.
Qed.

Lemma t46 : forall st u inner s d err hop idst hp s6 d6 ms md es ed,
  ed = negb (disable_dst_eam inner ((s_mode st =? EHM_SIMPLE) || hp)) ->
  es = negb (disable_src_eam inner (Leg s d err hop) idst ((s_mode st =? EHM_SIMPLE) || hp)) ->
  addrxlat_siit46 st d ed true = Ok (XContinue d6 md) -> addrxlat_siit46 st s es (negb err) = Ok (XContinue s6 ms) ->
  translate_addrs46_siit st u inner (Leg s d err hop) idst hp = Ok (Continue (s6, d6)).
Proof.
  intros st u inner s d err hop idst hp s6 d6 ms md es ed -> -> Hd Hs. unfold translate_addrs46_siit. cbn [l_src l_dst l_err l_hop].
  rewrite Hd. cbn [bind]. rewrite Hs. reflexivity.
Qed.

(** Whatever the source of an error, the destination and the hairpin flag. *)
Lemma t64_any : forall st u s d hop hp d4 md x,
  addrxlat_siit64 st d true = Ok (XContinue d4 md) ->
  translate_addrs64_siit st u false (Leg s d true hop) hp = Ok (Continue x) -> exists s4, x = (s4, d4, hp).
Proof.
  intros st u s d hop hp d4 md x Hd. unfold translate_addrs64_siit, mark_hairpin64. cbn [l_src l_dst l_err l_hop negb andb].
  rewrite Hd. cbn [bind]. destruct (addrxlat_siit64 st s false) as [v| |]; cbn [bind]; try discriminate.
  destruct (s_mode st =? EHM_INTRINSIC); destruct v; cbn [bind]; intros [= <-]; eauto.
Qed.
Lemma t46_any : forall st u s d hop idst hp d6 md x,
  addrxlat_siit46 st d true true = Ok (XContinue d6 md) ->
  translate_addrs46_siit st u false (Leg s d true hop) idst hp = Ok (Continue x) -> exists s6, x = (s6, d6).
Proof.
  intros st u s d hop idst hp d6 md x Hd. unfold translate_addrs46_siit, disable_dst_eam. cbn [l_src l_dst l_err l_hop].
  rewrite andb_false_r. cbn [negb]. rewrite Hd. cbn [bind].
  destruct (addrxlat_siit46 st s _ false) as [v| |]; cbn [bind]; try discriminate.
  destruct v; intros [= <-]; eauto.
Qed.

(** The steps of a whole translation. *)
Lemma c64_plain : forall st u l s4 d4 h, translate_addrs64_siit st u false l false = Ok (Continue (s4, d4, h)) ->
  compute_addrs64 st u (Packet l None) = Ok (Continue (Addrs s4 d4 None, h)).
Proof. intros st u l s4 d4 h H. unfold compute_addrs64. cbn [k_outer k_inner]. rewrite H. reflexivity. Qed.
Lemma c64_error : forall st u l i s4 d4 h is4 id4 h', translate_addrs64_siit st u false l false = Ok (Continue (s4, d4, h)) ->
  translate_addrs64_siit st u true i h = Ok (Continue (is4, id4, h')) ->
  compute_addrs64 st u (Packet l (Some i)) = Ok (Continue (Addrs s4 d4 (Some (is4, id4)), h')).
Proof. intros st u l i s4 d4 h is4 id4 h' H H'. unfold compute_addrs64. cbn [k_outer k_inner]. rewrite H. cbn [bind]. rewrite H'. reflexivity. Qed.
Lemma c46_plain : forall st u l hp s6 d6, translate_addrs46_siit st u false l 0 hp = Ok (Continue (s6, d6)) ->
  compute_addrs46 st u (Packet l None) hp = Ok (Continue (Addrs s6 d6 None)).
Proof. intros st u l hp s6 d6 H. unfold compute_addrs46. cbn [k_outer k_inner]. rewrite H. reflexivity. Qed.
Lemma c46_error : forall st u l i hp s6 d6 is6 id6, translate_addrs46_siit st u false l (l_dst i) hp = Ok (Continue (s6, d6)) ->
  translate_addrs46_siit st u true i 0 hp = Ok (Continue (is6, id6)) ->
  compute_addrs46 st u (Packet l (Some i)) hp = Ok (Continue (Addrs s6 d6 (Some (is6, id6)))).
Proof. intros st u l i hp s6 d6 is6 id6 H H'. unfold compute_addrs46. cbn [k_outer k_inner]. rewrite H. cbn [bind]. rewrite H'. reflexivity. Qed.

Lemma w46 : forall st u k hp s6 d6 i, compute_addrs46 st u k hp = Ok (Continue (Addrs s6 d6 i)) ->
  u_route u = true -> (s6 =? 0) = false -> xlat46 st u k hp = Ok (Continue (Sent6 (Addrs s6 d6 i))).
Proof.
  intros st u k hp s6 d6 i H Hr Hz. unfold xlat46. rewrite H. cbn [bind]. unfold predict_route46. rewrite Hr. cbn [negb a_src].
  rewrite Hz. reflexivity.
Qed.
Lemma w46_any : forall st u l i hp d6 is6 id6 md x,
  addrxlat_siit46 st (l_dst l) true true = Ok (XContinue d6 md) -> l_err l = true ->
  translate_addrs46_siit st u true i 0 hp = Ok (Continue (is6, id6)) ->
  xlat46 st u (Packet l (Some i)) hp = Ok (Continue x) -> exists s, x = Sent6 (Addrs s d6 (Some (is6, id6))).
Proof.
  intros st u [s d e hop] i hp d6 is6 id6 md x Hd He Hi. cbn [l_dst l_err] in *. subst e. unfold xlat46, compute_addrs46.
  cbn [k_outer k_inner]. destruct (translate_addrs46_siit st u false (Leg s d true hop) (l_dst i) hp) as [o| |] eqn:E; cbn [bind]; try discriminate.
  destruct o as [y| |]; cbn [bind]; try discriminate. destruct (t46_any _ _ _ _ _ _ _ _ _ _ Hd E) as (s6 & ->).
  rewrite Hi. cbn [bind]. unfold predict_route46. destruct (negb (u_route u)); [discriminate|]. cbn [a_src a_dst a_inner k_outer l_err negb].
  destruct (s6 =? 0); [destruct (u_host u); [|discriminate]|]; intros [= <-]; eauto.
Qed.

(** Intrinsic mode.  A6 writes to PB: B6 receives it, from PA, in one go; so
    (by symmetry) B6's answer to PA reaches A6 from PB.  And an ICMPv6 error
    about the packet that B6 received reaches A6, and contains the packet that
    A6 sent; if it came from B6, it comes from PB. *)
Theorem C70_intrinsic_partial : forall st c u u' a4 A6 PA b4 B6 PB hop hop', view st c -> wf_site c -> pool6_clear c ->
  s_mode st = EHM_INTRINSIC -> u_route u' = true -> mapped_pair c a4 A6 PA b4 B6 PB ->
  xlat64 st u u' (Packet (Leg A6 PB false hop) None) = Ok (Continue (Sent6 (Addrs PA B6 None))) /\
  xlat64 st u u' (Packet (Leg B6 PA true hop) (Some (Leg PA B6 false hop'))) =
    Ok (Continue (Sent6 (Addrs PB A6 (Some (A6, PB))))) /\
  (forall R x, xlat64 st u u' (Packet (Leg R PA true hop) (Some (Leg PA B6 false hop'))) = Ok (Continue x) ->
    exists s, x = Sent6 (Addrs s A6 (Some (A6, PB)))).
Proof.
  intros st c u u' a4 A6 PA b4 B6 PB hop hop' V W C M Ur X. destruct (pair_both st c a4 A6 PA b4 B6 PB V W C X) as [Fa Fb].
  destruct Fa as ((ea & F1) & (pa & F2) & (ea' & F3) & (pa' & F4) & F5 & F6 & F7).
  destruct Fb as ((eb & G1) & (pb & G2) & (eb' & G3) & (pb' & G4) & G5 & G6 & G7).
  assert (Mi : (s_mode st =? EHM_INTRINSIC) = true) by (rewrite M; reflexivity).
  assert (Ms : (s_mode st =? EHM_SIMPLE) = false) by (rewrite M; reflexivity).
  assert (I64 : forall h, translate_addrs64_siit st u true (Leg PA B6 false hop') h = Ok (Continue (a4, b4, true))).
  { intros h. eapply t64; [apply G1|apply F2|]. unfold mark_hairpin64. cbn [l_err negb andb is_6052]. rewrite Mi, F5. reflexivity. }
  assert (I46 : translate_addrs46_siit st u' true (Leg a4 b4 false hop') 0 true = Ok (Continue (A6, PB))).
  { eapply t46; [reflexivity|reflexivity| |]; rewrite Ms; cbn [orb disable_dst_eam disable_src_eam negb andb]; [apply G4|apply F3]. }
  split; [|split].
  - unfold xlat64. erewrite c64_plain.
    2: { eapply t64; [apply G2|apply F1|]. unfold mark_hairpin64. cbn [l_err negb andb is_6052]. rewrite Mi, G5. reflexivity. }
    cbn [bind]. unfold predict_route64. cbn [negb andb a_src]. rewrite F6. unfold become4. cbn [k_outer k_inner a_src a_dst l_err l_hop].
    apply w46; auto. apply c46_plain. eapply t46; [reflexivity|reflexivity| |];
      rewrite Ms; unfold disable_dst_eam, disable_src_eam; cbn [orb negb andb l_err]; [apply G3|apply F4].
  - unfold xlat64. erewrite c64_error; [|eapply t64; [apply F2|apply G1|]|apply I64].
    2: { unfold mark_hairpin64. cbn [l_err negb andb]. rewrite Mi. reflexivity. }
    cbn [bind]. unfold predict_route64. cbn [negb andb a_src]. rewrite G6.
    unfold become4. cbn [k_outer k_inner a_src a_dst a_inner l_err l_hop].
    apply w46; auto. apply c46_error; [|exact I46]. eapply t46; [reflexivity|reflexivity| |];
      rewrite Ms; unfold disable_dst_eam, disable_src_eam; cbn [orb negb andb l_err l_src l_dst]; [apply F3|].
    rewrite Z.eqb_refl. apply G4.
  - intros R x. unfold xlat64.
    destruct (compute_addrs64 st u _) as [o| |] eqn:E; cbn [bind]; try discriminate. destruct o as [[r h]| |]; try discriminate.
    unfold compute_addrs64 in E. cbn [k_outer k_inner] in E.
    destruct (translate_addrs64_siit st u false (Leg R PA true hop) false) as [o| |] eqn:E2; cbn [bind] in E; try discriminate.
    destruct o as [y| |]; try discriminate. destruct (t64_any _ _ _ _ _ _ _ _ _ (F2 true) E2) as (s4 & ->).
    rewrite I64 in E. cbn [bind] in E. injection E as <- <-. unfold predict_route64. cbn [negb andb a_src a_dst a_inner].
    assert (Y : forall s4', xlat46 st u' (become4 (Packet (Leg R PA true hop) (Some (Leg PA B6 false hop'))) (Addrs s4' a4 (Some (a4, b4)))) true
      = Ok (Continue x) -> exists s, x = Sent6 (Addrs s A6 (Some (A6, PB)))).
    { intros s4'. unfold become4. cbn [k_outer k_inner a_src a_dst a_inner l_err l_hop]. intros H.
      eapply w46_any; [| |exact I46|exact H]; [apply F3|reflexivity]. }
    destruct (s4 =? 0); [destruct (u_host u); [|discriminate]|]; intros H; eapply Y; exact H.
Qed.

(** Simple mode: the packet leaves as IPv4; when the IPv4 network returns it,
    the result is the same. *)
Theorem C70_simple_partial : forall st c u u' v v' a4 A6 PA b4 B6 PB hop hop', view st c -> wf_site c -> pool6_clear c ->
  s_mode st = EHM_SIMPLE -> u_route u = true -> u_route v = true -> mapped_pair c a4 A6 PA b4 B6 PB ->
  xlat64 st u u' (Packet (Leg A6 PB false hop) None) = Ok (Continue (Sent4 (Addrs a4 b4 None))) /\
  xlat46 st v (Packet (Leg a4 b4 false hop) None) false = Ok (Continue (Sent6 (Addrs PA B6 None))) /\
  xlat64 st u u' (Packet (Leg B6 PA true hop) (Some (Leg PA B6 false hop'))) =
    Ok (Continue (Sent4 (Addrs b4 a4 (Some (a4, b4))))) /\
  xlat46 st v (Packet (Leg b4 a4 true hop) (Some (Leg a4 b4 false hop'))) false =
    Ok (Continue (Sent6 (Addrs PB A6 (Some (A6, PB))))) /\
  (forall r x, xlat46 st v' (Packet (Leg r a4 true hop) (Some (Leg a4 b4 false hop'))) false = Ok (Continue x) ->
    exists s, x = Sent6 (Addrs s A6 (Some (A6, PB)))).
Proof.
  intros st c u u' v v' a4 A6 PA b4 B6 PB hop hop' V W C M Ur Vr X. destruct (pair_both st c a4 A6 PA b4 B6 PB V W C X) as [Fa Fb].
  destruct Fa as ((ea & F1) & (pa & F2) & (ea' & F3) & (pa' & F4) & F5 & F6 & F7).
  destruct Fb as ((eb & G1) & (pb & G2) & (eb' & G3) & (pb' & G4) & G5 & G6 & G7).
  assert (Mi : (s_mode st =? EHM_INTRINSIC) = false) by (rewrite M; reflexivity).
  assert (Ms : (s_mode st =? EHM_SIMPLE) = true) by (rewrite M; reflexivity).
  assert (Mk : forall inner l s ms d md h, mark_hairpin64 st inner l s ms d md h = Ok h)
    by (intros; unfold mark_hairpin64; rewrite Mi; reflexivity).
  assert (I46 : forall w, translate_addrs46_siit st w true (Leg a4 b4 false hop') 0 false = Ok (Continue (A6, PB))).
  { intros w. eapply t46; [reflexivity|reflexivity| |]; rewrite Ms; cbn [orb disable_dst_eam disable_src_eam negb andb]; [apply G4|apply F3]. }
  split; [|split; [|split; [|split]]].
  - unfold xlat64. erewrite c64_plain; [|eapply t64; [apply G2|apply F1|apply Mk]].
    cbn [bind]. unfold predict_route64. rewrite Ur. cbn [negb andb a_src]. rewrite F6. reflexivity.
  - apply w46; auto. apply c46_plain. eapply t46; [reflexivity|reflexivity| |];
      rewrite Ms; unfold disable_dst_eam, disable_src_eam; cbn [orb negb andb l_err]; [apply G3|apply F4].
  - unfold xlat64. erewrite c64_error; [|eapply t64; [apply F2|apply G1|apply Mk]|eapply t64; [apply G1|apply F2|apply Mk]].
    cbn [bind]. unfold predict_route64. rewrite Ur. cbn [negb andb a_src]. rewrite G6. reflexivity.
  - apply w46; auto. apply c46_error; [|apply I46]. eapply t46; [reflexivity|reflexivity| |];
      rewrite Ms; unfold disable_dst_eam, disable_src_eam; cbn [orb negb andb l_err l_src l_dst]; [apply F3|].
    rewrite Z.eqb_refl. apply G4.
  - intros r x H. eapply w46_any; [| |apply I46|exact H]; [apply F3|reflexivity].
Qed.

Example C70_nontrivial : mapped_pair site1 A4 A6 PA B4 B6 PB /\
  xlat64 (st1 EHM_INTRINSIC) luck0 luck0 (Packet (Leg A6 PB false 64) None) = Ok (Continue (Sent6 (Addrs PA B6 None))).
Proof.
  split; [|vm_compute; reflexivity].
  split; [unfold is_u32, A4; lia|]. split; [unfold is_u32, B4; lia|]. split; [discriminate|]. split; [discriminate|].
  split; [exists mapA; apply repA|]. split; [exists mapB; apply repB|]. exists pool1.
  split; [apply repU; vm_compute; reflexivity|]. split; [apply repU; vm_compute; reflexivity|].
  split; apply ok1; try (unfold is_u32, A4, B4; lia); vm_compute; reflexivity.
Qed.

(** ** C71: an answer goes back to who asked *)

(** S6 and D6 represent s4 and d4.  A packet from S6 to D6 goes out as one from
    s4 to d4; the answer comes back as one from D6 to S6; and so does the packet
    inside an ICMPv4 error.  Not in "simple" mode if D6 is a mapping's. *)
Theorem C71_roundtrip_partial : forall st c u u' v v' s4 S6 hs d4 D6 hd hop hop', view st c -> wf_site c -> pool6_clear c ->
  is_u32 s4 -> is_u32 d4 -> represents c S6 s4 hs -> represents c D6 d4 hd ->
  S6 <> loopback6 -> D6 <> loopback6 -> D6 <> 0 -> permitted c s4 hs -> permitted c d4 hd ->
  (s_mode st = EHM_SIMPLE -> exists p, hd = ByPool6 p) -> u_route u = true -> u_route v = true ->
  xlat64 st u u' (Packet (Leg S6 D6 false hop) None) = Ok (Continue (Sent4 (Addrs s4 d4 None))) /\
  xlat46 st v (Packet (Leg d4 s4 false hop) None) false = Ok (Continue (Sent6 (Addrs D6 S6 None))) /\
  (forall r x, xlat46 st v' (Packet (Leg r s4 true hop) (Some (Leg s4 d4 false hop'))) false = Ok (Continue x) ->
    exists s, x = Sent6 (Addrs s S6 (Some (S6, D6)))).
Proof.
  intros st c u u' v v' s4 S6 hs d4 D6 hd hop hop' V W C Hs Hd Rs Rd Ns Nd Zd Ps Pd M Ur Vr.
  assert (F1 : forall chk, addrxlat_siit64 st S6 chk = Ok (XContinue s4 (meth hs))).
  { intros chk. apply (x64 st c); auto; [eapply rep_u128; eauto|eapply rep_stands; eauto]. }
  assert (G1 : forall chk, addrxlat_siit64 st D6 chk = Ok (XContinue d4 (meth hd))).
  { intros chk. apply (x64 st c); auto; [eapply rep_u128; eauto|eapply rep_stands; eauto]. }
  pose proof Ps as (Ps1 & Ps2 & Ps3). pose proof Pd as (Pd1 & Pd2 & Pd3).
  assert (F3 : forall chk, addrxlat_siit46 st s4 true chk = Ok (XContinue S6 (meth hs))).
  { intros chk. apply (x46 st c); auto. }
  assert (G3 : forall eam chk, (eam = false -> exists p, hd = ByPool6 p) -> addrxlat_siit46 st d4 eam chk = Ok (XContinue D6 (meth hd))).
  { intros eam chk He. apply (x46 st c); auto. destruct eam; [exact Rd|]. destruct (He eq_refl) as (p & ->).
    inversion Rd; subst. constructor; auto. }
  assert (Mk : mark_hairpin64 st false (Leg S6 D6 false hop) s4 (meth hs) d4 (meth hd) false = Ok false).
  { unfold mark_hairpin64. cbn [negb andb l_err]. destruct (s_mode st =? EHM_INTRINSIC); [|reflexivity].
    destruct hd as [p|e]; cbn [meth is_6052]; [|reflexivity].
    destruct (contains4 st c d4 V Hd) as (b & -> & B). cbn [bind]. destruct b; [|reflexivity].
    exfalso. destruct (proj1 B eq_refl) as (e & He & I). inversion Rd as [|q N]; subst. exact (N e He I). }
  assert (Sz : (s4 =? 0) = false) by (apply Z.eqb_neq; intros ->; apply Ps1; left; lia).
  assert (Ms : forall e : bool, (if e then (s_mode st =? EHM_SIMPLE) else false) = true -> exists p, hd = ByPool6 p).
  { intros e He. apply M. destruct e; [apply Z.eqb_eq; exact He|discriminate]. }
  split; [|split].
  - unfold xlat64. erewrite c64_plain; [|eapply t64; [apply G1|apply F1|exact Mk]].
    cbn [bind]. unfold predict_route64. rewrite Ur. cbn [negb andb a_src]. rewrite Sz. reflexivity.
  - apply w46; auto; [|apply Z.eqb_neq; exact Zd]. apply c46_plain. eapply t46; [reflexivity|reflexivity| |];
      unfold disable_dst_eam, disable_src_eam; rewrite ?orb_false_r, ?andb_false_r; cbn [negb l_err].
    + apply F3.
    + apply G3. destruct (s_mode st =? EHM_SIMPLE) eqn:E; [intros _; exact (Ms true eq_refl)|discriminate].
  - intros r x H. eapply w46_any; [| | |exact H]; [apply F3|reflexivity|].
    eapply t46; [reflexivity|reflexivity| |]; unfold disable_dst_eam, disable_src_eam; rewrite ?orb_false_r, ?andb_true_r, ?orb_true_r; cbn [negb l_err].
    + apply G3. destruct (s_mode st =? EHM_SIMPLE) eqn:E; [intros _; exact (Ms true eq_refl)|discriminate].
    + apply F3.
Qed.

Example C71_nontrivial : exists hs hd, represents site1 A6 A4 hs /\ represents site1 PX X4 hd /\
  permitted site1 A4 hs /\ permitted site1 X4 hd /\
  xlat46 (st1 EHM_SIMPLE) luck0 (Packet (Leg X4 A4 false 64) None) false = Ok (Continue (Sent6 (Addrs PX A6 None))).
Proof.
  exists (ByEam mapA), (ByPool6 pool1). split; [apply repA|]. split; [apply repX|].
  split; [apply ok1; [unfold is_u32, A4; lia|vm_compute; reflexivity]|].
  split; [apply ok1; [unfold is_u32, X4; lia|vm_compute; reflexivity]|]. vm_compute. reflexivity.
Qed.

(** A node inside a mapping's prefix whose address does not end in zeroes is
    translated on the way out, but the answer goes to a different address. *)
Theorem C71_roundtrip_refuted : exists st c u S6 D6 s4 d4 S6', view st c /\ wf_site c /\ pool6_clear c /\ wt_luck u /\
  is_u128 S6 /\ xl64 c S6 s4 /\ xl64 c D6 d4 /\
  xlat64 st u u (Packet (Leg S6 D6 false 64) None) = Ok (Continue (Sent4 (Addrs s4 d4 None))) /\
  xlat46 st u (Packet (Leg d4 s4 false 64) None) false = Ok (Continue (Sent6 (Addrs D6 S6' None))) /\ S6' <> S6.
Proof.
  exists (st1 EHM_INTRINSIC), site1, luck0, (A6 + 5), PX, A4, X4, A6.
  split; [apply view1|]. split; [apply wf1|]. split; [apply clear1|]. split; [apply luck0_wt|].
  split; [unfold is_u128, A6; lia|].
  split.
  { split; [discriminate|]. exists (ByEam mapA). split.
    - apply SfEam; [right; left; reflexivity|vm_compute; reflexivity|unfold is_u32, A4; lia|vm_compute; reflexivity|vm_compute; reflexivity].
    - apply ok1; [unfold is_u32, A4; lia|vm_compute; reflexivity]. }
  split.
  { split; [discriminate|]. exists (ByPool6 pool1). split.
    - eapply rep_stands; [apply (view1 EHM_OFF)|apply wf1|apply clear1|unfold is_u32, X4; lia|apply repX].
    - apply ok1; [unfold is_u32, X4; lia|vm_compute; reflexivity]. }
  split; [vm_compute; reflexivity|]. split; [vm_compute; reflexivity|]. discriminate.
Qed.

(** ** The hypotheses of C49, C68 and C69 are met *)
Example C68_nontrivial :
  translate_addrs64_siit (st1 EHM_OFF) luck0 false (Leg 0x20010db8000a00000000000000000005 PX false 64) false
    = Ok (Continue (A4, X4, false)) /\
  translate_addrs64_siit (st1 EHM_OFF) luck0 false (Leg 0x20010db8ffff00000000000000000005 PX true 64) false
    = Ok (Continue (0xcb007240, X4, false)) /\
  translate_addrs64_siit (st1 EHM_OFF) luck0 false (Leg A6 0x0064ff9b0000000000000000c6336405 false 64) false
    = Ok (Untranslatable JSTAT64_SRC) /\
  translate_addrs46_siit (st1 EHM_OFF) luck0 false (Leg 0xc6336405 A4 false 64) 0 false = Ok (Untranslatable JSTAT46_SRC) /\
  translate_addrs46_siit (st1 EHM_OFF) luck0 false (Leg X4 B4 false 64) 0 false = Ok (Continue (PX, B6)).
Proof. repeat split; vm_compute; reflexivity. Qed.

Example C69_nontrivial : address_query64 (st1 EHM_OFF) B6 = Ok (Some (B4, AXM_EAMT mapB)) /\
  address_query64 (st1 EHM_OFF) PX = Ok (Some (X4, AXM_RFC6052 pool1)) /\
  address_query46 (st1 EHM_OFF) 0xc6336405 = Ok None.
Proof. repeat split; vm_compute; reflexivity. Qed.

(** ** C72: whole packets: what leaves, and with which source *)

(** The source that goes on the wire: an unspecified one is replaced by an
    address of this node, which is only done in ICMP errors. *)
Definition final_source (u : luck) (err : bool) (translated wire : Z) : Prop :=
  (translated <> 0 /\ wire = translated) \/ (translated = 0 /\ err = true /\ u_host u = Some wire).

(** IPv6 to IPv4: what leaves as IPv4 has both headers translated by the rules,
    and a route; and what can be translated by the rules leaves. *)
Theorem C72_6to4_partial : forall st c u u' k, view st c -> wf_site c -> wt_luck u ->
  wt_leg6 (k_outer k) -> (forall l, k_inner k = Some l -> wt_leg6 l) ->
  (forall r, xlat64 st u u' k = Ok (Continue (Sent4 r)) ->
    u_route u = true /\
    (exists s4, leg64 c (k_outer k) s4 (a_dst r) /\ final_source u (l_err (k_outer k)) s4 (a_src r)) /\
    match k_inner k with
    | None => a_inner r = None
    | Some l => exists s d, a_inner r = Some (s, d) /\ leg64 c l s d
    end) /\
  ((exists s4 d4, leg64 c (k_outer k) s4 d4) -> (forall l, k_inner k = Some l -> exists s d, leg64 c l s d) ->
    s_mode st <> EHM_INTRINSIC -> u_route u = true -> u_host u <> None ->
    exists r, xlat64 st u u' k = Ok (Continue (Sent4 r))) /\
  ((forall s4 d4, ~ leg64 c (k_outer k) s4 d4) \/ (exists l, k_inner k = Some l /\ forall s d, ~ leg64 c l s d) ->
    exists s, xlat64 st u u' k = Ok (Untranslatable s)).
Proof.
  intros st c u u' k V W Hu Ho Hi.
  destruct (C68_6to4_partial st c u false (k_outer k) false V W Ho Hu) as (o & Eo & O1 & O2 & O3).
  unfold xlat64, compute_addrs64. rewrite Eo. cbn [bind].
  destruct o as [[[src dst] h]|s|s]; cbn [bind].
  2:{ split; [discriminate|]. split; [|eauto]. intros X. destruct (O2 X) as (? & ? & ? & [=]). }
  2:{ split; [discriminate|]. split.
      - intros X. destruct (O2 X) as (? & ? & ? & [=]).
      - intros [X|(l & El & X)]; [destruct (O3 X) as (? & [=])|]. exfalso.
        revert Eo. unfold translate_addrs64_siit.
        destruct (one64 st c (l_dst (k_outer k)) true V W ltac:(apply Ho)) as (vd & -> & Xd). cbn [bind].
        destruct vd; try discriminate; [|destruct Xd].
        destruct (one64 st c (l_src (k_outer k)) (negb (l_err (k_outer k))) V W ltac:(apply Ho)) as (vs & -> & Xs). cbn [bind].
        destruct vs; try discriminate; [| |destruct Xs].
        + intros E. apply finish64 in E. destruct E; discriminate.
        + destruct (l_err (k_outer k)); [|discriminate]. intros E. apply finish64 in E. destruct E; discriminate. }
  specialize (O1 _ _ _ eq_refl).
  assert (Nz : src = 0 -> l_err (k_outer k) = true).
  { intros ->. destruct O1 as (_ & O1). destruct (l_err (k_outer k)); [reflexivity|].
    destruct O1 as (_ & hh & _ & P & _). exfalso. apply P. left; lia. }
  assert (Fin : forall inn h', (forall r, (match predict_route64 u (Addrs src dst inn) h' with
      | Continue r' => if (h' : bool) then xlat46 st u' (become4 k r') true else Ok (Continue (Sent4 r'))
      | Untranslatable s => Ok (Untranslatable s) | Drop s => Ok (Drop s) end) = Ok (Continue (Sent4 r)) ->
      u_route u = true /\ (exists s4, leg64 c (k_outer k) s4 (a_dst r) /\ final_source u (l_err (k_outer k)) s4 (a_src r)) /\
      a_inner r = inn)).
  { intros inn h' r. unfold predict_route64, final_source. destruct h'; cbn [negb andb a_src a_dst a_inner].
    - assert (N : forall p, xlat46 st u' p true <> Ok (Continue (Sent4 r))).
      { intros p. unfold xlat46. destruct (compute_addrs46 st u' p true) as [[x| |]| |]; cbn [bind]; try discriminate.
        destruct (predict_route46 u' p x); discriminate. }
      destruct (src =? 0); [destruct (u_host u)|]; intros E; try discriminate; destruct (N _ E).
    - destruct (u_route u); cbn [negb]; [|discriminate]. destruct (src =? 0) eqn:Ez.
      + apply Z.eqb_eq in Ez. destruct (u_host u) eqn:Eh; [|discriminate]. intros [= <-]. cbn [a_src a_dst a_inner].
        split; [reflexivity|]. split; [|reflexivity]. exists src. split; [exact O1|]. right. auto.
      + apply Z.eqb_neq in Ez. intros [= <-]. split; [reflexivity|]. split; [|reflexivity]. exists src. cbn [a_src a_dst].
        split; [exact O1|]. left; auto. }
  assert (Go : forall inn, s_mode st <> EHM_INTRINSIC -> u_route u = true -> u_host u <> None ->
    exists r, (match predict_route64 u (Addrs src dst inn) false with
      | Continue r' => Ok (Continue (Sent4 r'))
      | Untranslatable s => Ok (Untranslatable s) | Drop s => Ok (Drop s) end) = Ok (Continue (Sent4 r))).
  { intros inn _ Er Eh. unfold predict_route64. rewrite Er. cbn [negb andb a_src a_dst a_inner].
    destruct (src =? 0); [destruct (u_host u); [eauto|congruence]|eauto]. }
  assert (Hf : s_mode st <> EHM_INTRINSIC -> forall inner l hh x, translate_addrs64_siit st u inner l hh = Ok (Continue x) -> snd x = hh).
  { intros Hm inner l hh x. unfold translate_addrs64_siit, mark_hairpin64. apply Z.eqb_neq in Hm. rewrite Hm.
    destruct (addrxlat_siit64 st (l_dst l) true) as [[]| |]; cbn [bind]; try discriminate.
    destruct (addrxlat_siit64 st (l_src l) (negb (l_err l))) as [[]| |]; cbn [bind]; try discriminate.
    - intros [= <-]. reflexivity.
    - destruct (l_err l); [|discriminate]. intros [= <-]. reflexivity. }
  destruct (k_inner k) as [l|] eqn:El.
  2:{ cbn [bind]. split; [intros r E; apply (Fin None h) in E; tauto|]. split.
      - intros _ _ Hm Er Eh. apply (Hf Hm) in Eo. cbn [snd] in Eo. subst h. exact (Go None Hm Er Eh).
      - intros [X|(l & [=] & _)]. exfalso. exact (X _ _ O1). }
  destruct (C68_6to4_partial st c u true l h V W (Hi l eq_refl) Hu) as (i & Ei & I1 & I2 & I3).
  rewrite Ei. cbn [bind]. destruct i as [[[isrc idst] h']|s|s]; cbn [bind].
  - specialize (I1 _ _ _ eq_refl). split.
    + intros r E. apply (Fin (Some (isrc, idst)) h') in E. destruct E as (E1 & E2 & E3). split; [exact E1|]. split; [exact E2|]. eauto.
    + split.
      * intros _ _ Hm Er Eh. apply (Hf Hm) in Eo. apply (Hf Hm) in Ei. cbn [snd] in Eo, Ei. subst h h'. exact (Go _ Hm Er Eh).
      * intros [X|(l' & [= <-] & X)]; exfalso; [exact (X _ _ O1)|exact (X _ _ I1)].
  - split; [discriminate|]. split; [|eauto]. intros _ X. destruct (I2 (X l eq_refl)) as (? & ? & ? & [=]).
  - split; [discriminate|]. split.
    + intros _ X. destruct (I2 (X l eq_refl)) as (? & ? & ? & [=]).
    + intros [X|(l' & [= <-] & X)]; exfalso; [exact (X _ _ O1)|destruct (I3 X) as (? & [=])].
Qed.

(** IPv4 to IPv6, outside of hairpinning and of [C68_4to6_refuted]. *)
Theorem C72_4to6_partial : forall st c u k, view st c -> wf_site c -> wt_luck u ->
  wt_leg4 (k_outer k) -> (forall l, k_inner k = Some l -> wt_leg4 l) -> s_mode st <> EHM_SIMPLE ->
  (forall l, l = k_outer k \/ k_inner k = Some l ->
    l_err l = true -> denylisted c (l_src l) -> exists e, In e (t_tbl c) /\ in4 (e_p4 e) (l_src l)) ->
  (forall x, xlat46 st u k false = Ok (Continue x) -> exists r, x = Sent6 r /\
    u_route u = true /\
    (exists s6, leg46 c (k_outer k) s6 (a_dst r) /\ final_source u (l_err (k_outer k)) s6 (a_src r)) /\
    match k_inner k with
    | None => a_inner r = None
    | Some l => exists s d, a_inner r = Some (s, d) /\ leg46 c l s d
    end) /\
  ((exists s6 d6, leg46 c (k_outer k) s6 d6 /\ s6 <> 0) -> (forall l, k_inner k = Some l -> exists s d, leg46 c l s d) ->
    u_route u = true -> u_host u <> None -> exists r, xlat46 st u k false = Ok (Continue (Sent6 r))) /\
  ((forall s6 d6, ~ leg46 c (k_outer k) s6 d6) \/ (exists l, k_inner k = Some l /\ forall s d, ~ leg46 c l s d) ->
    exists s, xlat46 st u k false = Ok (Untranslatable s) \/ xlat46 st u k false = Ok (Drop s)).
Proof.
  intros st c u k V W Hu Ho Hi Hm Hx.
  unfold xlat46, compute_addrs46. set (idst := match k_inner k with Some l => l_dst l | None => 0 end). clearbody idst.
  destruct (C68_4to6_partial st c u false (k_outer k) idst V W Ho Hu Hm (Hx _ (or_introl eq_refl))) as (o & Eo & O1 & O2 & O3).
  rewrite Eo. cbn [bind]. destruct o as [[src dst]|s|s]; cbn [bind].
  2,3: split; [discriminate|]; split; [intros (s6 & d6 & X & _); destruct (O2 (ex_intro _ s6 (ex_intro _ d6 X))) as (? & ? & [=])|eauto].
  specialize (O1 _ _ eq_refl).
  assert (Fin : forall inn x, (match predict_route46 u k (Addrs src dst inn) with
      | Continue r' => Ok (Continue (Sent6 r'))
      | Untranslatable s => Ok (Untranslatable s) | Drop s => Ok (Drop s) end) = Ok (Continue x) ->
      exists r, x = Sent6 r /\
      u_route u = true /\ (exists s6, leg46 c (k_outer k) s6 (a_dst r) /\ final_source u (l_err (k_outer k)) s6 (a_src r)) /\
      a_inner r = inn).
  { intros inn x. unfold predict_route46, final_source. cbn [a_src a_dst a_inner].
    destruct (u_route u); cbn [negb]; [|discriminate]. destruct (src =? 0) eqn:Ez.
    - apply Z.eqb_eq in Ez. destruct (l_err (k_outer k)) eqn:Ee; cbn [negb]; [|discriminate].
      destruct (u_host u) eqn:Eh; [|discriminate]. intros [= <-]. eexists. split; [reflexivity|]. cbn [a_src a_dst a_inner].
      split; [reflexivity|]. split; [|reflexivity]. exists src. split; [exact O1|]. right. auto.
    - apply Z.eqb_neq in Ez. intros [= <-]. eexists. split; [reflexivity|]. split; [reflexivity|]. split; [|reflexivity].
      exists src. cbn [a_src a_dst]. split; [exact O1|]. left; auto. }
  assert (Uniq : forall s6 d6, leg46 c (k_outer k) s6 d6 -> l_err (k_outer k) = false -> s6 = src).
  { intros s6 d6 (_ & L) Ee. destruct O1 as (_ & L'). rewrite Ee in L, L'. destruct L as (h & R & _), L' as (h' & R' & _).
    destruct (represents_unique st c _ _ _ _ _ V W (proj1 Ho) R R'). congruence. }
  assert (Go : forall inn, (exists s6 d6, leg46 c (k_outer k) s6 d6 /\ s6 <> 0) -> u_route u = true -> u_host u <> None ->
    exists r, (match predict_route46 u k (Addrs src dst inn) with
      | Continue r' => Ok (Continue (Sent6 r'))
      | Untranslatable s => Ok (Untranslatable s) | Drop s => Ok (Drop s) end) = Ok (Continue (Sent6 r))).
  { intros inn (s6 & d6 & L & N) Er Eh. unfold predict_route46. rewrite Er. cbn [negb a_src a_dst a_inner].
    destruct (src =? 0) eqn:Ez; [|eauto]. apply Z.eqb_eq in Ez.
    destruct (l_err (k_outer k)) eqn:Ee; cbn [negb]; [destruct (u_host u); [eauto|congruence]|].
    exfalso. apply N. rewrite (Uniq s6 d6 L eq_refl). exact Ez. }
  destruct (k_inner k) as [l|] eqn:El.
  2:{ cbn [bind]. split; [intros x E; apply Fin in E; exact E|]. split; [intros X _; apply Go; exact X|].
      intros [X|(l & [=] & _)]. exfalso. exact (X _ _ O1). }
  destruct (C68_4to6_partial st c u true l 0 V W (Hi l eq_refl) Hu Hm (Hx _ (or_intror eq_refl))) as (i & Ei & I1 & I2 & I3).
  rewrite Ei. cbn [bind]. destruct i as [[isrc idst']|s|s]; cbn [bind].
  - specialize (I1 _ _ eq_refl). split.
    + intros x E. apply Fin in E. destruct E as (r & E0 & E1 & E2 & E3). exists r. split; [exact E0|]. split; [exact E1|]. split; [exact E2|]. eauto.
    + split; [intros X _; apply Go; exact X|].
      intros [X|(l' & [= <-] & X)]; exfalso; [exact (X _ _ O1)|exact (X _ _ I1)].
  - split; [discriminate|]. split; [|eauto]. intros _ X. destruct (I2 (X l eq_refl)) as (? & ? & [=]).
  - split; [discriminate|]. split; [|eauto]. intros _ X. destruct (I2 (X l eq_refl)) as (? & ? & [=]).
Qed.

(** Unless "randomize-rfc6791-addresses" is on, the mask of an IPv6 router only
    depends on the hop limit: chance does not matter. *)
Theorem C72_deterministic : forall st u u' inner l hairpin, s_random st = false ->
  translate_addrs64_siit st u inner l hairpin = translate_addrs64_siit st u' inner l hairpin.
Proof. intros st u u' inner l hp R. unfold translate_addrs64_siit, rfc6791v4_find. rewrite R. reflexivity. Qed.

Example C72_nontrivial :
  xlat64 (st1 EHM_OFF) luck0 luck0 (Packet (Leg 0x20010db8ffff00000000000000000005 PX true 64) (Some (Leg PX A6 false 60)))
    = Ok (Continue (Sent4 (Addrs 0xcb007240 X4 (Some (X4, A4))))) /\
  xlat64 (st0 EHM_OFF) luck0 luck0 (Packet (Leg 0x20010db8ffff00000000000000000005 PX true 64) (Some (Leg PX PX false 60)))
    = Ok (Continue (Sent4 (Addrs 0xcb007101 X4 (Some (X4, X4))))).
Proof. split; vm_compute; reflexivity. Qed.

Print Assumptions C68_6to4_partial.
Print Assumptions C68_4to6_partial.
Print Assumptions C68_4to6_refuted.
Print Assumptions C68_scope_refuted.
Print Assumptions C49_4to6_partial.
Print Assumptions C49_6to4_refuted.
Print Assumptions C49_6to4_partial.
Print Assumptions C69_6to4.
Print Assumptions C69_4to6_partial.
Print Assumptions C69_answer_partial.
Print Assumptions C69_4to6_refuted.
Print Assumptions C70_intrinsic_partial.
Print Assumptions C70_simple_partial.
Print Assumptions C71_roundtrip_partial.
Print Assumptions C71_roundtrip_refuted.
Print Assumptions C72_6to4_partial.
Print Assumptions C72_4to6_partial.
Print Assumptions C72_deterministic.
