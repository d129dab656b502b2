(** Checksums of translated segments: C31, C32 and C33. *)
Require Import Verif.Base Verif.Csum_Model Verif.Csum_Spec Verif.Csum_Proofs.
Local Ltac Zify.zify_post_hook ::= idtac.

Lemma same_but_put : forall le off n ports seg c, layout off n -> (n <= length seg)%nat -> good_ports ports ->
  same_but off ports seg (put off (st16 le c) (new_ports ports seg)).
Proof.
  intros le off n ports seg c Lay L G. pose proof Lay as (E & L4 & En & Ln).
  assert (Eq : put off (st16 le c) (new_ports ports seg) = put off (st16 le c) (put off [0; 0] (new_ports ports seg))).
  { symmetry. apply put_put; [rewrite st16_length; reflexivity|]. rewrite st16_length, new_ports_length by lia. lia. }
  rewrite Eq. eapply (same_but_out le off n ports); try eassumption. reflexivity.
Qed.
Lemma lay_tcp : layout 16 20. Proof. unfold layout. cbn. lia. Qed.
Lemma lay_udp : layout 6 8. Proof. unfold layout. cbn. lia. Qed.
Lemma dg_ports : forall ports seg, datagram seg -> (4 <= length seg)%nat -> datagram (new_ports ports seg).
Proof. intros ports seg [F L] L4. split; [apply new_ports_u8; assumption|]. rewrite new_ports_length by lia. assumption. Qed.

(** ** C31: TCP and UDP, IPv6 to IPv4

    The checksum of the translated segment is right for the IPv4 pseudo-header
    exactly if that of the received one was for the IPv6 pseudo-header, or in
    any case if the machine left the computation to the network card; nothing
    but the ports and the checksum changed. Either byte order. *)
Theorem C31_tcp64 : forall le s ports s6 d6 s4 d4 seg, datagram seg -> (20 <= length seg)%nat -> good_ports ports ->
  let out := ttp64_tcp le s ports s6 d6 s4 d4 seg in
  same_but 16 ports seg out /\ (ok4 s4 d4 6 out <-> s = CS_PARTIAL \/ ok6 s6 d6 6 seg).
Proof.
  intros le s ports s6 d6 s4 d4 seg D L G out. pose proof D as [F Len].
  destruct (is_partial s) eqn:P.
  - assert (s = CS_PARTIAL) by (destruct s; try discriminate; reflexivity). subst s.
    subst out. unfold ttp64_tcp. cbn [is_partial].
    destruct (finish4_ok le 16 6 s4 d4 seg (new_ports ports seg) _ eq_refl ltac:(rewrite new_ports_length; lia) (dg_ports _ _ D ltac:(lia))
      ltac:(rewrite new_ports_length; lia) ltac:(lia) eq_refl) as (c & -> & Uc & _ & O).
    split; [apply (same_but_put le 16 20); [apply lay_tcp|assumption|assumption]|]. tauto.
  - assert (N : s <> CS_PARTIAL) by (intros ->; discriminate).
    subst out. unfold ttp64_tcp. rewrite P. cbv zeta. split; [apply (same_but_out le 16 20); [apply lay_tcp|assumption|assumption|reflexivity]|].
    pose proof (upd64_ok le 16 20 6 ports s6 d6 s4 d4 seg _ lay_tcp ltac:(lia) D L (cong_refl _)) as K. cbv zeta in K.
    rewrite <- K; [tauto|].
    apply update64_spec; [apply get16_u16; assumption|apply put_u8; [apply u8_00|apply firstn_u8; assumption]|].
    apply firstn_u8. apply put_u8; [apply u8_00|]. apply new_ports_u8. assumption.
Qed.
Print Assumptions C31_tcp64.

Lemma udp64_form : forall le s ports s6 d6 s4 d4 seg, datagram seg -> (8 <= length seg)%nat ->
  exists c, ttp64_udp le s ports s6 d6 s4 d4 seg = put 6 (st16 le c) (new_ports ports seg) /\ is_u16 c /\ c <> 0 /\
    (ok4 s4 d4 17 (put 6 (st16 le c) (new_ports ports seg)) <-> s = CS_PARTIAL \/ ok6 s6 d6 17 seg).
Proof.
  intros le s ports s6 d6 s4 d4 seg D L. pose proof D as [F Len].
  destruct (is_partial s) eqn:P.
  - assert (s = CS_PARTIAL) by (destruct s; try discriminate; reflexivity). subst s.
    unfold ttp64_udp. cbn [is_partial].
    destruct (finish4_ok le 6 17 s4 d4 seg (new_ports ports seg) _ eq_refl ltac:(rewrite new_ports_length; lia) (dg_ports _ _ D ltac:(lia))
      ltac:(rewrite new_ports_length; lia) ltac:(lia) eq_refl) as (c & -> & Uc & N0 & O).
    exists c. tauto.
  - assert (N : s <> CS_PARTIAL) by (intros ->; discriminate).
    unfold ttp64_udp. rewrite P. cbv zeta.
    assert (U : is_u16 (update_csum_6to4 le (get16 le 6 seg) s6 d6 (put 6 [0; 0] (firstn 8 seg)) s4 d4 (firstn 8 (put 6 [0; 0] (new_ports ports seg))))).
    { apply update64_spec; [apply get16_u16; assumption|apply put_u8; [apply u8_00|apply firstn_u8; assumption]|].
      apply firstn_u8. apply put_u8; [apply u8_00|]. apply new_ports_u8. assumption. }
    pose proof (fix0_u16 _ U) as [U1 N1].
    pose proof (upd64_ok le 6 8 17 ports s6 d6 s4 d4 seg _ lay_udp ltac:(lia) D L (fix0_cong _) U1) as K. cbv zeta in K.
    rewrite put_put in * by (rewrite ?st16_length; cbn [length]; rewrite ?new_ports_length by lia; lia).
    eexists. split; [reflexivity|]. split; [exact U1|]. split; [exact N1|]. rewrite <- K. tauto.
Qed.

Theorem C31_udp64 : forall le s ports s6 d6 s4 d4 seg, datagram seg -> (8 <= length seg)%nat -> good_ports ports ->
  let out := ttp64_udp le s ports s6 d6 s4 d4 seg in
  same_but 6 ports seg out /\ (ok4 s4 d4 17 out <-> s = CS_PARTIAL \/ ok6 s6 d6 17 seg).
Proof.
  intros le s ports s6 d6 s4 d4 seg D L G out. subst out.
  destruct (udp64_form le s ports s6 d6 s4 d4 seg D L) as (c & -> & U & N & O).
  split; [apply (same_but_put le 6 8); [apply lay_udp|assumption|assumption]|exact O].
Qed.
Print Assumptions C31_udp64.

(** ** C31: TCP and UDP, IPv4 to IPv6

    [first] and [next] are what the outgoing packets carry of the segment: one
    packet, or several if Jool fragments, in which case all but the last carry
    an even number of octets (C35 shows a multiple of 8). *)
Definition pieces (first : list Z) (next : list (list Z)) : Prop :=
  datagram (first ++ concat next) /\ Forall (fun f => Nat.even (length f) = true) (removelast (first :: next)).

Lemma same_but_list : forall le off n ports first rest c, layout off n -> (n <= length first)%nat -> good_ports ports ->
  same_but off ports (first ++ rest) (put off (st16 le c) (put off [0; 0] (new_ports ports first)) ++ rest).
Proof.
  intros le off n ports first rest c Lay L G. pose proof Lay as (E & L4 & En & Ln).
  assert (LP : length (new_ports ports first) = length first) by (apply new_ports_length; lia).
  rewrite <- put_app by (rewrite st16_length, put_length by (cbn [length]; lia); lia). rewrite <- put_app by (cbn [length]; lia).
  rewrite <- new_ports_app by lia. apply (same_but_out le off n); try assumption; [rewrite app_length; lia|reflexivity].
Qed.
Lemma list_csum_u16 : forall le frags s d p, Forall is_u8 (concat frags) -> is_u16 (skb_list_csum le frags s d p).
Proof.
  intros le frags s d p F. unfold skb_list_csum. cbv zeta. 
  assert (U : forall frags s, Forall is_u8 (concat frags) -> is_u32 s -> is_u32 (fold_left (fun c f => csum_partial le f c) frags s)).
  { clear. induction frags as [|f frags IH]; intros s F U; [exact U|]. cbn [concat] in F. apply Forall_app in F. destruct F as [F1 F2].
    cbn [fold_left]. apply IH; [exact F2|]. apply csum_partial_spec; assumption. }
  destruct (ipv6_magic_spec le s d (fold_left (fun n f => n + Z.of_nat (length f)) frags 0) p _ (U frags 0 F u32_0)) as (x & -> & Ux & _).
  apply csum_fold_u16. exact Ux.
Qed.

Theorem C31_tcp46 : forall le s ports s4 d4 s6 d6 first next, pieces first next -> (20 <= length first)%nat -> good_ports ports ->
  let out := concat (ttp46_tcp le s ports s4 d4 s6 d6 first next) in
  let seg := first ++ concat next in
  same_but 16 ports seg out /\ (ok6 s6 d6 6 out <-> s = CS_PARTIAL \/ ok4 s4 d4 6 seg).
Proof.
  intros le s ports s4 d4 s6 d6 first next [D Ev] L G out seg. pose proof D as [F Len]. pose proof F as F'. apply Forall_app in F'. destruct F' as [F1 F2].
  assert (LP : length (new_ports ports first) = length first) by (apply new_ports_length; lia).
  subst out seg. unfold ttp46_tcp. destruct (is_partial s) eqn:P.
  - assert (s = CS_PARTIAL) by (destruct s; try discriminate; reflexivity). subst s. destruct next as [|f next].
    + cbn [concat] in *. rewrite app_nil_r in *.
      destruct (finish6_ok le 16 6 s6 d6 first (new_ports ports first) _ eq_refl ltac:(lia) (dg_ports _ _ D ltac:(lia))
        ltac:(lia) ltac:(lia) eq_refl) as (c & -> & Uc & _ & O). rewrite app_nil_r.
      split; [apply (same_but_put le 16 20); [apply lay_tcp|assumption|assumption]|]. tauto.
    + cbn [concat]. split; [apply (same_but_list le 16 20); [apply lay_tcp|assumption|assumption]|].
      pose proof (list_csum_ok le 16 6 s6 d6 (new_ports ports first) (f :: next) eq_refl ltac:(lia) ltac:(lia)) as K. cbv zeta in K.
      enough (ok6 s6 d6 6 (put 16 (st16 le (skb_list_csum le (put 16 [0; 0] (new_ports ports first) :: f :: next) s6 d6 6)) (put 16 [0; 0] (new_ports ports first)) ++ concat (f :: next))) by tauto.
      apply K.
      * cbn [removelast] in *. inversion Ev as [|? ? E1 E2]. constructor; [rewrite LP; exact E1|exact E2].
      * split; [apply Forall_app; split; [apply new_ports_u8; assumption|assumption]|]. rewrite app_length, LP, <- app_length. exact Len.
  - assert (N : s <> CS_PARTIAL) by (intros ->; discriminate).
    destruct (upd46_frags le 16 20 6 ports s4 d4 s6 d6 first (concat next) lay_tcp ltac:(lia) D L G) as [A B].
    cbn [concat]. split; [exact B|]. rewrite <- A. tauto.
Qed.
Print Assumptions C31_tcp46.

(** UDP with a checksum. *)
Theorem C31_udp46 : forall le s nat64 mf amend ports s4 d4 s6 d6 first next, pieces first next -> (8 <= length first)%nat -> good_ports ports ->
  (nth 6 first 0 <> 0 \/ nth 7 first 0 <> 0) ->
  exists outs, ttp46_udp le s nat64 mf amend ports s4 d4 s6 d6 first next = Some outs /\
  let seg := first ++ concat next in
  same_but 6 ports seg (concat outs) /\ (ok6 s6 d6 17 (concat outs) <-> s = CS_PARTIAL \/ ok4 s4 d4 17 seg).
Proof.
  intros le s nat64 mf amend ports s4 d4 s6 d6 first next [D Ev] L G NZ. pose proof D as [F Len]. pose proof F as F'. apply Forall_app in F'. destruct F' as [F1 F2].
  assert (LP : length (new_ports ports first) = length first) by (apply new_ports_length; lia).
  assert (U6 : is_u8 (nth 6 first 0)) by (rewrite Forall_forall in F1; apply F1, nth_In; lia).
  assert (U7 : is_u8 (nth 7 first 0)) by (rewrite Forall_forall in F1; apply F1, nth_In; lia).
  unfold ttp46_udp. cbv zeta.
  replace (get16 le 6 first =? 0) with false by (symmetry; apply Z.eqb_neq; unfold get16, ld16, is_u8 in *; destruct le; lia).
  destruct (is_partial s) eqn:P; cbn [negb].
  - assert (s = CS_PARTIAL) by (destruct s; try discriminate; reflexivity). subst s. destruct next as [|f next].
    + eexists. split; [reflexivity|]. cbn [concat] in *. rewrite app_nil_r in *.
      destruct (finish6_ok le 6 17 s6 d6 first (new_ports ports first) _ eq_refl ltac:(lia) (dg_ports _ _ D ltac:(lia))
        ltac:(lia) ltac:(lia) eq_refl) as (c & -> & Uc & _ & O). rewrite app_nil_r.
      split; [apply (same_but_put le 6 8); [apply lay_udp|assumption|assumption]|]. tauto.
    + eexists. split; [reflexivity|]. cbn [concat]. split; [apply (same_but_list le 6 8); [apply lay_udp|assumption|assumption]|].
      pose proof (list_csum_ok le 6 17 s6 d6 (new_ports ports first) (f :: next) eq_refl ltac:(lia) ltac:(lia)) as K. cbv zeta in K.
      enough (ok6 s6 d6 17 (put 6 (st16 le (skb_list_csum le (put 6 [0; 0] (new_ports ports first) :: f :: next) s6 d6 17)) (put 6 [0; 0] (new_ports ports first)) ++ concat (f :: next))) by tauto.
      apply K.
      * cbn [removelast] in *. inversion Ev as [|? ? E1 E2]. constructor; [rewrite LP; exact E1|exact E2].
      * split; [apply Forall_app; split; [apply new_ports_u8; assumption|assumption]|]. rewrite app_length, LP, <- app_length. exact Len.
  - assert (N : s <> CS_PARTIAL) by (intros ->; discriminate).
    destruct (upd46_frags le 6 8 17 ports s4 d4 s6 d6 first (concat next) lay_udp ltac:(lia) D L G) as [A B].
    eexists. split; [reflexivity|]. cbn [concat]. split; [exact B|]. rewrite <- A. tauto.
Qed.
Print Assumptions C31_udp46.

(** UDP without a checksum, in one packet: dropped if the translator is
    stateless and the datagram fragmented or the user does not want checksums
    computed, else it gets a right checksum, which is never zero. *)
Theorem C31_udp46_zero : forall le s nat64 mf amend ports s4 d4 s6 d6 seg, datagram seg -> (8 <= length seg)%nat -> good_ports ports ->
  nth 6 seg 0 = 0 -> nth 7 seg 0 = 0 ->
  match ttp46_udp le s nat64 mf amend ports s4 d4 s6 d6 seg [] with
  | None => nat64 = false /\ (mf = true \/ amend = false)
  | Some outs => (nat64 = true \/ mf = false /\ amend = true) /\
    exists out, outs = [out] /\ same_but 6 ports seg out /\ ok6 s6 d6 17 out /\ 256 * nth 6 out 0 + nth 7 out 0 <> 0
  end.
Proof.
  intros le s nat64 mf amend ports s4 d4 s6 d6 seg D L G Z6 Z7.
  assert (LP : length (new_ports ports seg) = length seg) by (apply new_ports_length; lia).
  unfold ttp46_udp. cbv zeta.
  replace (get16 le 6 seg =? 0) with true by (unfold get16; rewrite Z6, Z7; destruct le; reflexivity).
  unfold can_compute_csum. destruct nat64; cbn [negb].
  2: destruct mf, amend; cbn [negb orb]; try solve [split; auto].
  1: split; [left; reflexivity|]. 2: split; [right; split; reflexivity|].
  all: destruct (finish6_ok le 6 17 s6 d6 seg (new_ports ports seg) _ eq_refl ltac:(lia) (dg_ports _ _ D ltac:(lia))
        ltac:(lia) ltac:(lia) eq_refl) as (c & -> & Uc & N0 & O); eexists; split; [reflexivity|];
      (split; [apply (same_but_put le 6 8); [apply lay_udp|assumption|assumption]|]); (split; [exact O|]);
      rewrite !put_nth by (rewrite st16_length; lia); rewrite st16_length; cbn -[st16 Z.mul Z.add];
      unfold st16; destruct le; cbn [nth Nat.sub]; unfold is_u16 in Uc; pose proof (Z.div_mod c 256); pose proof (Z.mod_pos_bound c 256);
      pose proof (Z.div_pos c 256); lia.
Qed.
Print Assumptions C31_udp46_zero.

Definition cs_a4 : Z := 3221225985. (* 192.0.2.1 *)
Definition cs_b4 : Z := 3325256706. (* 198.51.100.2 *)
Definition cs_pfx : Z := 524413980667603649783483181312245760. (* 64:ff9b:: *)
Definition cs_a6 : Z := cs_pfx + cs_a4.
Definition cs_b6 : Z := cs_pfx + cs_b4.

(** In the stateful translator, a datagram without a checksum that Jool has to
    fragment gets the checksum of its first fragment: the receiver drops it. *)
Theorem C31_refuted : exists le s mf amend ports s4 d4 s6 d6 first next outs,
  pieces first next /\ (8 <= length first)%nat /\ nth 6 first 0 = 0 /\ nth 7 first 0 = 0 /\
  ttp46_udp le s true mf amend ports s4 d4 s6 d6 first next = Some outs /\ ~ ok6 s6 d6 17 (concat outs).
Proof.
  exists true, CS_NONE, false, true, (Some (4000, 5000)), cs_a4, cs_b4, cs_a6, cs_b6, [15; 160; 19; 136; 0; 12; 0; 0], [[1; 2; 3; 4]].
  eexists. split; [split; [split; [repeat constructor; unfold is_u8; lia|cbn; lia]|repeat constructor]|].
  split; [cbn; lia|]. split; [reflexivity|]. split; [reflexivity|]. split; [vm_compute; reflexivity|].
  unfold ok6, checks. intros [_ K]. vm_compute in K. discriminate.
Qed.
Print Assumptions C31_refuted.

(** ** C32 *)

(** To IPv4, no datagram says "no checksum". *)
Theorem C32_udp64 : forall le s ports s6 d6 s4 d4 seg, datagram seg -> (8 <= length seg)%nat ->
  let out := ttp64_udp le s ports s6 d6 s4 d4 seg in 256 * nth 6 out 0 + nth 7 out 0 <> 0.
Proof.
  intros le s ports s6 d6 s4 d4 seg D L out. subst out.
  destruct (udp64_form le s ports s6 d6 s4 d4 seg D L) as (c & -> & Uc & N0 & _).
  assert (LP : length (new_ports ports seg) = length seg) by (apply new_ports_length; lia).
  rewrite !put_nth by (rewrite st16_length; lia); rewrite st16_length; cbn -[st16 Z.mul Z.add].
  unfold st16; destruct le; cbn [nth Nat.sub]; unfold is_u16 in Uc; pose proof (Z.div_mod c 256); pose proof (Z.mod_pos_bound c 256);
  pose proof (Z.div_pos c 256); lia.
Qed.
Print Assumptions C32_udp64.

(** To IPv6, a correct datagram with checksum 0xffff and a translation that does
    not change the sum (as with the prefix 64:ff9b::/96) gets checksum zero. *)
Theorem C32_refuted : exists le s4 d4 s6 d6 seg out, datagram seg /\ ok4 s4 d4 17 seg /\
  ttp46_udp le CS_NONE false false true None s4 d4 s6 d6 seg [] = Some [out] /\ nth 6 out 0 = 0 /\ nth 7 out 0 = 0.
Proof.
  exists true, cs_a4, cs_b4, cs_a6, cs_b6, [15; 160; 19; 136; 0; 10; 255; 255; 240; 122].
  eexists. split; [split; [repeat constructor; unfold is_u8; lia|cbn; lia]|]. split; [split; vm_compute; [discriminate|reflexivity]|].
  split; [vm_compute; reflexivity|]. split; reflexivity.
Qed.
Print Assumptions C32_refuted.

(** It does not happen to datagrams whose checksum is left to the network card,
    in one packet. What is missing is every other datagram with a checksum. *)
Theorem C32_udp46_partial : forall le nat64 mf amend ports s4 d4 s6 d6 seg, datagram seg -> (8 <= length seg)%nat ->
  match ttp46_udp le CS_PARTIAL nat64 mf amend ports s4 d4 s6 d6 seg [] with
  | Some outs => exists out, outs = [out] /\ 256 * nth 6 out 0 + nth 7 out 0 <> 0
  | None => nat64 = false /\ nth 6 seg 0 = 0 /\ nth 7 seg 0 = 0
  end.
Proof.
  intros le nat64 mf amend ports s4 d4 s6 d6 seg D L.
  assert (LP : length (new_ports ports seg) = length seg) by (apply new_ports_length; lia).
  assert (P : exists out, [finish_partial le 6 (put 6 (st16 le (not16 (csum_ipv6_magic le s6 d6 (Z.of_nat (length seg)) 17 0))) (new_ports ports seg))] = [out] /\ 256 * nth 6 out 0 + nth 7 out 0 <> 0).
  { destruct (finish6_ok le 6 17 s6 d6 seg (new_ports ports seg) _ eq_refl ltac:(lia) (dg_ports _ _ D ltac:(lia))
        ltac:(lia) ltac:(lia) eq_refl) as (c & -> & Uc & N0 & O). eexists. split; [reflexivity|].
    rewrite !put_nth by (rewrite st16_length; lia); rewrite st16_length; cbn -[st16 Z.mul Z.add].
    unfold st16; destruct le; cbn [nth Nat.sub]; unfold is_u16 in Uc; pose proof (Z.div_mod c 256); pose proof (Z.mod_pos_bound c 256);
      pose proof (Z.div_pos c 256); lia. }
  unfold ttp46_udp. cbv zeta. cbn [is_partial negb]. destruct (Z.eqb_spec (get16 le 6 seg) 0) as [E|E]; [|exact P].
  destruct (can_compute_csum nat64 mf amend) eqn:C; [exact P|].
  split; [destruct nat64; [discriminate|reflexivity]|]. destruct D as [F _]. rewrite Forall_forall in F.
  assert (U6 : is_u8 (nth 6 seg 0)) by (apply F, nth_In; lia). assert (U7 : is_u8 (nth 7 seg 0)) by (apply F, nth_In; lia).
  unfold get16, ld16, is_u8 in *. destruct le; lia.
Qed.
Print Assumptions C32_udp46_partial.

(** ** C33: ICMP echo *)

(** The echo header of [out] is that of [msg] with another type and, in the
    stateful translator, another identifier. *)
Definition echo_of (type : Z) (id : option Z) (msg out : list Z) : Prop :=
  length out = length msg /\ nth 0 out 0 = type /\ nth 1 out 0 = 0 /\
  256 * nth 4 out 0 + nth 5 out 0 = match id with Some i => i | None => 256 * nth 4 msg 0 + nth 5 msg 0 end /\
  forall i, (6 <= i)%nat -> nth i out 0 = nth i msg 0.
Definition good_id (id : option Z) : Prop := match id with Some i => is_u16 i | None => True end.

(** The eight octets of an outgoing echo header before the checksum. *)
Definition eh (t : Z) (id : option Z) (msg : list Z) : list Z :=
  [t; 0; nth 2 msg 0; nth 3 msg 0] ++ (match id with Some i => octets 2 i | None => [nth 4 msg 0; nth 5 msg 0] end) ++ [nth 6 msg 0; nth 7 msg 0].
Lemma eh_form : forall t id msg, is_u8 t -> good_id id -> Forall is_u8 msg -> (8 <= length msg)%nat ->
  exists i1 i2, eh t id msg = [t; 0; nth 2 msg 0; nth 3 msg 0; i1; i2; nth 6 msg 0; nth 7 msg 0] /\ Forall is_u8 (eh t id msg) /\
    256 * i1 + i2 = match id with Some i => i | None => 256 * nth 4 msg 0 + nth 5 msg 0 end.
Proof.
  intros t id msg Ut G F L. rewrite Forall_forall in F.
  assert (N : forall i, (i < 8)%nat -> is_u8 (nth i msg 0)) by (intros i Hi; apply F, nth_In; lia).
  assert (U0 : is_u8 0) by (unfold is_u8; lia).
  unfold eh. destruct id as [i|].
  - cbn [good_id] in G. exists (octet 2 i 0), (octet 2 i 1). split; [reflexivity|]. split.
    + change (octets 2 i) with [octet 2 i 0; octet 2 i 1]. cbn [app]. repeat (constructor; [first [exact Ut|exact U0|apply octet_is_u8|apply N; lia]|]). constructor.
    + pose proof (be_of_octets 2 i) as K. change (octets 2 i) with [octet 2 i 0; octet 2 i 1] in K.
      unfold is_u16 in G. cbn in K. change (256 ^ Z.of_nat 2) with 65536 in K. 
      change (octet 2 i 0) with ((i / 256) mod 256). change (octet 2 i 1) with ((i / 1) mod 256). rewrite Z.div_1_r.
      pose proof (Z.div_mod i 256). rewrite (Z.mod_small (i / 256)); [lia|]. split; [apply Z.div_pos; lia|apply Z.div_lt_upper_bound; lia].
  - do 2 eexists. split; [reflexivity|]. cbn [app]. split; [|reflexivity].
    repeat (constructor; [first [exact Ut|exact U0|apply N; lia]|]). constructor.
Qed.

Lemma echo_fields : forall le t id msg c, is_u8 t -> good_id id -> Forall is_u8 msg -> (8 <= length msg)%nat ->
  echo_of t id msg (put 2 (st16 le c) (eh t id msg) ++ skipn 8 msg).
Proof.
  intros le t id msg c Ut G F L. destruct (eh_form t id msg Ut G F L) as (i1 & i2 & -> & _ & I).
  assert (E : exists a b, st16 le c = [a; b]) by (unfold st16; destruct le; eauto). destruct E as (a & b & ->).
  change (put 2 [a; b] [t; 0; nth 2 msg 0; nth 3 msg 0; i1; i2; nth 6 msg 0; nth 7 msg 0]) with [t; 0; a; b; i1; i2; nth 6 msg 0; nth 7 msg 0].
  split; [rewrite app_length, skipn_length; cbn [length]; lia|]. split; [reflexivity|]. split; [reflexivity|]. split; [exact I|].
  intros i Hi. destruct (Nat.eq_dec i 6) as [->|]; [reflexivity|]. destruct (Nat.eq_dec i 7) as [->|]; [reflexivity|].
  rewrite app_nth2 by (cbn [length]; lia). cbn [length]. rewrite nth_skipn_add. f_equal. lia.
Qed.

Lemma msg_split : forall le (msg : list Z), (8 <= length msg)%nat -> hs le msg = hs le (firstn 8 msg) + hs le (skipn 8 msg).
Proof.
  intros le msg L. rewrite <- (firstn_skipn 8 msg) at 1. apply hs_app. rewrite firstn_length, Nat.min_l by lia. reflexivity.
Qed.
Lemma eh_even : forall le t id msg c rest, is_u8 t -> good_id id -> Forall is_u8 msg -> (8 <= length msg)%nat ->
  hs le (put 2 (st16 le c) (eh t id msg) ++ rest) = hs le (put 2 (st16 le c) (eh t id msg)) + hs le rest.
Proof.
  intros le t id msg c rest Ut G F L. apply hs_app. destruct (eh_form t id msg Ut G F L) as (i1 & i2 & -> & _ & I).
  rewrite put_length by (rewrite st16_length; cbn [length]; lia). reflexivity.
Qed.

Lemma echo64_form : forall le s6 d6 id msg, datagram msg -> (8 <= length msg)%nat -> good_id id ->
  exists c, echo64 le s6 d6 id msg = put 2 (st16 le c) (eh (if nth 0 msg 0 =? 128 then 8 else 0) id msg) ++ skipn 8 msg /\ is_u16 c /\ c <> 65535 /\
    (ok6 s6 d6 58 msg <-> wsum (echo64 le s6 d6 id msg) mod 65535 = 0).
Proof.
  intros le s6 d6 id msg D L G. pose proof D as [F Len].
  unfold echo64. cbv zeta. set (t := if nth 0 msg 0 =? 128 then 8 else 0).
  assert (Ut : is_u8 t) by (subst t; destruct (nth 0 msg 0 =? 128); unfold is_u8; lia).
  change ([t; 0; nth 2 msg 0; nth 3 msg 0] ++ match id with Some i => octets 2 i | None => [nth 4 msg 0; nth 5 msg 0] end ++ [nth 6 msg 0; nth 7 msg 0]) with (eh t id msg).
  destruct (eh_form t id msg Ut G F L) as (i1 & i2 & E & FE & I).
  destruct (icmp4_upd le s6 d6 (Z.of_nat (length msg)) (firstn 8 msg) (eh t id msg)) as (c & Ec & Uc & Nc & Cc);
    [lia|apply firstn_u8; assumption|assumption|rewrite firstn_length; lia|rewrite E; cbn [length]; lia|].
  exists c. rewrite Ec. split; [reflexivity|]. split; [exact Uc|]. split; [exact Nc|].
  rewrite (ok6_hs le) by (first [assumption|lia]). unfold pl.
  rewrite (wsum_class le).
  rewrite eh_even by assumption.
  rewrite (msg_split le msg L). apply cong_iff0. destruct Cc as [k K]. exists (-k). lia.
Qed.

Lemma echo46_form : forall le s6 d6 id msg, datagram msg -> (8 <= length msg)%nat -> good_id id ->
  exists c, echo46 le s6 d6 id msg = put 2 (st16 le c) (eh (if nth 0 msg 0 =? 8 then 128 else 129) id msg) ++ skipn 8 msg /\ is_u16 c /\
    (wsum msg mod 65535 = 0 <-> ok6 s6 d6 58 (echo46 le s6 d6 id msg)).
Proof.
  intros le s6 d6 id msg D L G. pose proof D as [F Len].
  unfold echo46. cbv zeta. set (t := if nth 0 msg 0 =? 8 then 128 else 129).
  assert (Ut : is_u8 t) by (subst t; destruct (nth 0 msg 0 =? 8); unfold is_u8; lia).
  change ([t; 0; nth 2 msg 0; nth 3 msg 0] ++ match id with Some i => octets 2 i | None => [nth 4 msg 0; nth 5 msg 0] end ++ [nth 6 msg 0; nth 7 msg 0]) with (eh t id msg).
  destruct (eh_form t id msg Ut G F L) as (i1 & i2 & E & FE & I).
  destruct (icmp6_upd le s6 d6 (Z.of_nat (length msg)) (firstn 8 msg) (eh t id msg)) as (c & Ec & Uc & Cc);
    [lia|assumption|apply firstn_u8; assumption|rewrite E; cbn [length]; lia|rewrite firstn_length; lia|].
  exists c. rewrite Ec. split; [reflexivity|]. split; [exact Uc|].
  assert (LO : length (put 2 (st16 le c) (eh t id msg) ++ skipn 8 msg) = length msg).
  { rewrite app_length, put_length, skipn_length; rewrite E; rewrite ?st16_length; cbn [length]; lia. }
  rewrite (ok6_hs le); [|lia|split; [apply Forall_app; split; [apply put_u8; [apply st16_u8; assumption|assumption]|apply skipn_u8; assumption]|lia]].
  unfold pl. rewrite LO, eh_even by assumption. rewrite (wsum_class le), (msg_split le msg L).
  apply cong_iff0. destruct Cc as [k K]. exists (-k). lia.
Qed.

Lemma wsum_ge0 : forall m, Forall is_u8 m -> 0 <= wsum m.
Proof.
  assert (K : forall n m, (length m <= n)%nat -> Forall is_u8 m -> 0 <= wsum m).
  { induction n; intros m L F; (destruct m as [|a [|b m]]; [cbn; lia| |]); try (cbn [length] in L; lia).
    - inversion F; subst. unfold is_u8 in *. cbn [wsum]. lia.
    - inversion F as [|? ? A F1]; subst. inversion F1; subst. cbn [wsum]. pose proof (IHn m ltac:(cbn [length] in L; lia) ltac:(assumption)). unfold is_u8 in *. lia. }
  intros m. apply (K (length m)). lia.
Qed.
Lemma wsum_pos : forall m, Forall is_u8 m -> (exists i, nth i m 0 <> 0) -> 0 < wsum m.
Proof.
  assert (K : forall n m i, (length m <= n)%nat -> Forall is_u8 m -> nth i m 0 <> 0 -> 0 < wsum m).
  { induction n; intros m i L F N; (destruct m as [|a [|b m]]; [destruct i; elim N; reflexivity| |]); try (cbn [length] in L; lia).
    - inversion F; subst. unfold is_u8 in *. cbn [wsum]. destruct i as [|[|i]]; [cbn [nth] in N; lia|elim N; reflexivity|elim N; reflexivity].
    - inversion F as [|? ? A F1]; subst. inversion F1 as [|? ? B F2]; subst. cbn [wsum]. pose proof (wsum_ge0 m F2). unfold is_u8 in *.
      destruct i as [|[|i]]; cbn [nth] in N; [lia|lia|]. pose proof (IHn m i ltac:(cbn [length] in L; lia) ltac:(assumption) N). lia. }
  intros m F [i N]. apply (K (length m) m i); [lia|assumption|assumption].
Qed.
Lemma wsum_all0 : forall m, (forall i, nth i m 0 = 0) -> wsum m = 0.
Proof.
  assert (K : forall n m, (length m <= n)%nat -> (forall i, nth i m 0 = 0) -> wsum m = 0).
  { induction n; intros m L N; (destruct m as [|a [|b m]]; [reflexivity| |]); try (cbn [length] in L; lia).
    - specialize (N 0%nat). cbn [nth] in N. cbn [wsum]. lia.
    - pose proof (N 0%nat). pose proof (N 1%nat). cbn [nth] in *. cbn [wsum].
      rewrite (IHn m); [lia|cbn [length] in L; lia|]. intros i. exact (N (S (S i))). }
  intros m. apply (K (length m)). lia.
Qed.
Lemma all0_dec : forall m : list Z, (exists i, nth i m 0 <> 0) \/ (forall i, nth i m 0 = 0).
Proof.
  induction m as [|a m [[i N]|N]]; [right; intros [|i]; reflexivity|left; exists (S i); exact N|].
  destruct (Z.eq_dec a 0); [right; intros [|i]; [assumption|apply N]|left; exists 0%nat; assumption].
Qed.

(** IPv4 to IPv6: a message with a right checksum gets a right checksum, and one
    with a wrong checksum a wrong one. A message of zeros only, which RFC 1071
    calls wrong, is corrected. *)
Theorem C33_echo46 : forall le s6 d6 id msg, datagram msg -> (8 <= length msg)%nat -> good_id id -> nth 0 msg 0 = 8 \/ nth 0 msg 0 = 0 ->
  let out := echo46 le s6 d6 id msg in
  echo_of (if nth 0 msg 0 =? 8 then 128 else 129) id msg out /\ (ok6 s6 d6 58 out <-> checks msg \/ forall i, nth i msg 0 = 0).
Proof.
  intros le s6 d6 id msg D L G T out. destruct (echo46_form le s6 d6 id msg D L G) as (c & E & Uc & K). subst out. split.
  - rewrite E. apply echo_fields; try assumption; [|apply D]. destruct (nth 0 msg 0 =? 8); unfold is_u8; lia.
  - rewrite <- K. unfold checks. split.
    + intros M. destruct (all0_dec msg) as [N|N]; [|right; exact N]. left. split; [|exact M]. pose proof (wsum_pos msg (proj1 D) N). lia.
    + intros [[_ M]|N]; [exact M|]. rewrite (wsum_all0 msg N). reflexivity.
Qed.
Print Assumptions C33_echo46.

(** IPv6 to IPv4: right exactly if it was right, unless all octets that come out
    are zero (see [C33_refuted]). *)
Theorem C33_echo64_partial : forall le s6 d6 id msg, datagram msg -> (8 <= length msg)%nat -> good_id id -> nth 0 msg 0 = 128 \/ nth 0 msg 0 = 129 ->
  let out := echo64 le s6 d6 id msg in
  echo_of (if nth 0 msg 0 =? 128 then 8 else 0) id msg out /\ (checks out <-> ok6 s6 d6 58 msg /\ exists i, nth i out 0 <> 0).
Proof.
  intros le s6 d6 id msg D L G T out. destruct (echo64_form le s6 d6 id msg D L G) as (c & E & Uc & Nc & K). subst out.
  assert (Ut : is_u8 (if nth 0 msg 0 =? 128 then 8 else 0)) by (destruct (nth 0 msg 0 =? 128); unfold is_u8; lia).
  assert (FO : Forall is_u8 (echo64 le s6 d6 id msg)).
  { rewrite E. apply Forall_app. split; [apply put_u8; [apply st16_u8; assumption|]|apply skipn_u8; apply D].
    destruct (eh_form _ id msg Ut G (proj1 D) L) as (i1 & i2 & _ & FE & _). exact FE. }
  split.
  - rewrite E. apply echo_fields; try assumption. apply D.
  - rewrite K. unfold checks. split.
    + intros [N M]. split; [exact M|]. destruct (all0_dec (echo64 le s6 d6 id msg)) as [A|A]; [exact A|]. elim N. apply wsum_all0. exact A.
    + intros [M A]. split; [|exact M]. pose proof (wsum_pos _ FO A). lia.
Qed.
Print Assumptions C33_echo64_partial.

(** A correct echo reply whose identifier, sequence number and data are zero is
    translated to a message whose checksum should be 0xffff but is zero. *)
Theorem C33_refuted : exists le s6 d6 msg, datagram msg /\ (8 <= length msg)%nat /\ nth 0 msg 0 = 129 /\
  ok6 s6 d6 58 msg /\ ~ checks (echo64 le s6 d6 None msg).
Proof.
  exists true, cs_a6, cs_b6, [129; 0; 146; 133; 0; 0; 0; 0]. split; [split; [repeat constructor; unfold is_u8; lia|cbn; lia]|].
  split; [cbn; lia|]. split; [reflexivity|]. split; [split; vm_compute; [discriminate|reflexivity]|].
  intros [N _]. apply N. vm_compute. reflexivity.
Qed.
Print Assumptions C33_refuted.

(** ICMP errors: the old checksum is verified (unless the network card did), the
    new one is right whatever the message has become. *)
Theorem C33_errors64 : forall le s6 d6 msg out, datagram msg -> Forall is_u8 out -> (8 <= length out)%nat ->
  (validate_icmp6_csum le CS_NONE s6 d6 msg = true <-> ok6 s6 d6 58 msg) /\
  checks (compute_icmp4_csum le out) /\ forall i, i <> 2%nat -> i <> 3%nat -> nth i (compute_icmp4_csum le out) 0 = nth i out 0.
Proof.
  intros le s6 d6 msg out D F L. split; [apply validate6_ok; assumption|].
  destruct (compute4_ok le out F ltac:(lia)) as (c & -> & Uc & K). split; [exact K|].
  intros i H2 H3. rewrite put_nth by (rewrite st16_length; lia). rewrite st16_length.
  destruct (Nat.leb_spec 2 i) as [A|A]; [|reflexivity]. destruct (Nat.ltb_spec i (2 + 2)) as [B|B]; [lia|reflexivity].
Qed.
Print Assumptions C33_errors64.
Theorem C33_errors46 : forall le s6 d6 msg out, Forall is_u8 msg -> datagram out -> (8 <= length out)%nat ->
  (validate_icmp4_csum le CS_NONE msg = true <-> checks msg) /\
  ok6 s6 d6 58 (compute_icmp6_csum le s6 d6 out) /\ forall i, i <> 2%nat -> i <> 3%nat -> nth i (compute_icmp6_csum le s6 d6 out) 0 = nth i out 0.
Proof.
  intros le s6 d6 msg out F D L. split; [apply validate4_ok; assumption|].
  destruct (compute6_ok le s6 d6 out D ltac:(lia)) as (c & -> & Uc & K). split; [exact K|].
  intros i H2 H3. rewrite put_nth by (rewrite st16_length; lia). rewrite st16_length.
  destruct (Nat.leb_spec 2 i) as [A|A]; [|reflexivity]. destruct (Nat.ltb_spec i (2 + 2)) as [B|B]; [lia|reflexivity].
Qed.
Print Assumptions C33_errors46.

(** ** Examples *)

(** A correct TCP segment over IPv6, with new ports and addresses. *)
Definition ex_tcp : list Z := [4; 210; 0; 80; 0; 0; 0; 1; 0; 0; 0; 2; 80; 24; 4; 0; 49; 4; 0; 0; 104; 105; 33].
Example ex_tcp_in : datagram ex_tcp /\ (20 <= length ex_tcp)%nat /\ ok6 cs_a6 cs_b6 6 ex_tcp.
Proof. split; [split; [repeat constructor; unfold is_u8; lia|cbn; lia]|]. split; [cbn; lia|]. split; vm_compute; [discriminate|reflexivity]. Qed.
Example ex_tcp_out : ttp64_tcp true CS_NONE (Some (61001, 443)) cs_a6 cs_b6 cs_a4 cs_b4 ex_tcp =
  [238; 73; 1; 187; 0; 0; 0; 1; 0; 0; 0; 2; 80; 24; 4; 0; 70; 33; 0; 0; 104; 105; 33].
Proof. vm_compute. reflexivity. Qed.
Example ex_tcp_big_endian : forall s6 d6, s6 = cs_a6 -> d6 = cs_b6 ->
  ttp64_tcp false CS_NONE (Some (61001, 443)) s6 d6 cs_a4 cs_b4 ex_tcp = ttp64_tcp true CS_NONE (Some (61001, 443)) s6 d6 cs_a4 cs_b4 ex_tcp.
Proof. intros ? ? -> ->. vm_compute. reflexivity. Qed.
(** Fragments. *)
Example ex_pieces : pieces (firstn 22 ex_tcp) [skipn 22 ex_tcp].
Proof. split; [split; [repeat constructor; unfold is_u8; lia|cbn; lia]|]. repeat constructor. Qed.
