(** Theorems about the bytes sessions travel as, and their way into the peer's BIB. *)
Require Import Verif.Base Verif.Addr_Model Verif.Rtrie_Model Verif.Pool4_Model Verif.Fsm_Model Verif.Bib_Model
  Verif.Bib_Inv Verif.Bib_Steps Verif.Bib_Fate Verif.Bib_Find Verif.Bib_Add Verif.Bib_Ops Verif.Bib_Hist Verif.Bib_Spec Verif.Bib_Properties
  Verif.Nat64_Model Verif.Nat64_Spec Verif.Joold_Model Verif.Joold_Spec.
Local Ltac Zify.zify_post_hook ::= idtac.

Lemma read_octets : forall n v l, 0 <= v < 256 ^ Z.of_nat n -> read_raw n (octets n v ++ l) = Ok (v, l).
Proof.
  intros n v l Hv. unfold read_raw. rewrite app_length, octets_length. destruct (Nat.ltb_spec (n + length l) n); [lia|].
  rewrite firstn_app, skipn_app, octets_length, Nat.sub_diag, firstn_O, skipn_O, app_nil_r. rewrite firstn_all2, skipn_all2 by (rewrite octets_length; lia).
  rewrite be_of_octets by exact Hv. reflexivity.
Qed.

Lemma put_length : forall d now p e, length (put_session d now p e) = 36%nat.
Proof. intros. unfold put_session. rewrite !app_length, !octets_length. reflexivity. Qed.

(** The flags *)
Definition flags_of (p : proto) (st : Z) (k : timer) : Z := u16 (Z.lor (Z.lor (Z.shiftl (proto_code p) 5) (Z.shiftl st 2)) (timer_code k)).
Lemma flags_ok : forall p st k, 0 <= st <= 7 -> 0 <= flags_of p st k < 2^16 /\
  proto_of (Z.land (Z.shiftr (flags_of p st k) 5) 3) = p /\ Z.land (Z.shiftr (flags_of p st k) 2) 7 = st /\ timer_of (Z.land (flags_of p st k) 3) = k.
Proof.
  intros p st k H. assert (X : st = 0 \/ st = 1 \/ st = 2 \/ st = 3 \/ st = 4 \/ st = 5 \/ st = 6 \/ st = 7) by lia.
  repeat destruct X as [->|X]; [..|subst st]; destruct p, k; vm_compute; repeat split; discriminate || reflexivity.
Qed.

(** What the sender tells about the session's remaining lifetime, in ms. *)
Definition remaining (d now : Z) (e : sentry) : Z := d * Z.max 0 (u64 (e_time e + e_timeout e) - now).

Lemma get_put : forall pool6 p e c d now1 now2 to, good_session pool6 p e -> 1 <= d -> 0 <= now1 < 2^64 -> remaining d now1 e < 2^31 ->
  joold_timeout c p (e_timer e) = Some to ->
  get_session pool6 c now2 (put_session d now1 p e) =
    Ok (Some (p, SE (e_src6 e) (e_dst6 e) (e_src4 e) (e_dst4 e) (e_state e) (e_timer e) (u64 (now2 + msecs_to_jiffies (c_hz c) (remaining d now1 e) - to)) to false)).
Proof.
  intros pool6 p [[a6 p6] [b6 q6] [a4 p4] [b4 q4] st k time timeout stored] c d now1 now2 to (H6 & H4 & Hd & Hx & Hp & Hst & Hk) Hd1 Hn Hr Hto.
  unfold is_ta6, is_ta4 in *. cbn [e_src6 e_dst6 e_src4 e_dst4 e_state e_timer e_time e_timeout fst snd] in *.
  assert (Er : u32 (let dying := u64 (time + timeout) in
     let dying0 := if now1 <? dying then jiffies_to_msecs d (u64 (dying - now1)) else 0 in if 4294967295 <? dying0 then 4294967295 else dying0) = remaining d now1 (SE (a6, p6) (b6, q6) (a4, p4) (b4, q4) st k time timeout stored)
     /\ 0 <= remaining d now1 (SE (a6, p6) (b6, q6) (a4, p4) (b4, q4) st k time timeout stored)).
  { unfold remaining in *. cbn [e_time e_timeout] in *. cbv zeta. assert (Hu : 0 <= u64 (time + timeout) < 2^64) by (unfold u64; apply Z.mod_pos_bound; reflexivity).
    change (2^31) with 2147483648 in *. change (2^64) with 18446744073709551616 in *.
    destruct (Z.ltb_spec now1 (u64 (time + timeout))) as [L|L].
    - rewrite Z.max_r in * by lia. assert (E : u64 (u64 (time + timeout) - now1) = u64 (time + timeout) - now1) by (unfold u64 at 1; apply Z.mod_small; change (2^64) with 18446744073709551616; lia).
      rewrite E. unfold jiffies_to_msecs. assert (Hb : 0 <= d * (u64 (time + timeout) - now1)) by nia.
      assert (E2 : u32 (d * (u64 (time + timeout) - now1)) = d * (u64 (time + timeout) - now1)) by (unfold u32; apply Z.mod_small; change (2^32) with 4294967296; lia).
      rewrite E2. destruct (Z.ltb_spec 4294967295 (d * (u64 (time + timeout) - now1))); [lia|]. rewrite E2. auto.
    - rewrite Z.max_l by lia. rewrite Z.mul_0_r. cbn. auto with zarith. }
  destruct Er as [Er Er0]. unfold get_session. rewrite put_length. change (4 + Z.of_nat 36 <? SERIALIZED_SESSION_SIZE) with false. cbv iota.
  unfold put_session. cbv zeta. cbn [e_src6 e_dst6 e_src4 e_dst4 e_state e_timer e_time e_timeout fst snd]. cbv zeta in Er. rewrite Er.
  destruct (flags_ok p st k ltac:(lia)) as (F0 & F1 & F2 & F3). fold (flags_of p st k).
  set (rem := remaining d now1 _) in *. clearbody rem. set (fl := flags_of p st k) in *. clearbody fl.
  change (2^31) with 2147483648 in *. change (2^128) with 340282366920938463463374607431768211456 in *. change (2^32) with 4294967296 in *. change (2^16) with 65536 in *.
  assert (P16 : 256 ^ Z.of_nat 16 = 340282366920938463463374607431768211456) by reflexivity.
  assert (P4 : 256 ^ Z.of_nat 4 = 4294967296) by reflexivity. assert (P2 : 256 ^ Z.of_nat 2 = 65536) by reflexivity.
  rewrite read_octets by (rewrite P16; lia). cbn [bind].
  do 3 (rewrite read_octets by (rewrite P4; lia); cbn [bind]).
  do 3 (rewrite read_octets by (rewrite P2; lia); cbn [bind]).
  rewrite <- (app_nil_r (octets 2 fl)). rewrite read_octets by (rewrite P2; lia). cbn [bind].
  rewrite Hx. rewrite F1, F2, F3, Hto. cbv zeta. rewrite Hp. destruct p; reflexivity.
Qed.

Lemma ceil_exact : forall d r, 1 <= d -> 0 <= r -> (d * r + d - 1) / d = r.
Proof. intros d r Hd Hr. symmetry. apply (Z.div_unique _ d r (d - 1)); lia. Qed.

(** ** C30 *)
(** What a peer gets is the session, and it dies (as the peer's table counts) when
    the remaining lifetime is over: exactly if both hosts have the same clock tick,
    else rounded up to the peer's.  Incoming SYN sessions are another matter, see
    [C30_syn_refuted]. *)
Theorem C30_round_trip_partial : forall pool6 p e c d now1 now2, good_session pool6 p e -> e_timer e <> T_SYN4 ->
  1 <= d -> 1 <= c_hz c -> 0 <= now1 < 2^64 -> remaining d now1 e < 2^31 ->
  exists e', get_session pool6 c now2 (put_session d now1 p e) = Ok (Some (p, e')) /\ same_session e e' /\ e_stored e' = false /\
    exists wait, dies c p e' = u64 (now2 + wait) /\ remaining d now1 e <= c_hz c * wait < remaining d now1 e + c_hz c /\
      (c_hz c = d -> wait = Z.max 0 (u64 (e_time e + e_timeout e) - now1)).
Proof.
  intros pool6 p e c d now1 now2 G Hk Hd Hc Hn Hr. pose proof G as (_ & _ & _ & _ & _ & _ & Hf).
  assert (Hto : joold_timeout c p (e_timer e) = Some (get_timeout c p (e_timer e))).
  { unfold joold_timeout, get_timeout. destruct p, (e_timer e); cbn [timer_fits] in Hf; try congruence; try discriminate; try contradiction; reflexivity. }
  rewrite (get_put pool6 p e c d now1 now2 _ G Hd Hn Hr Hto). eexists. split; [reflexivity|]. split; [unfold same_session; cbn; auto 10|]. split; [reflexivity|].
  exists (msecs_to_jiffies (c_hz c) (remaining d now1 e)).
  assert (Em : msecs_to_jiffies (c_hz c) (remaining d now1 e) = (remaining d now1 e + c_hz c - 1) / c_hz c) by (unfold msecs_to_jiffies; destruct (Z.ltb_spec (remaining d now1 e) (2^31)); [reflexivity|lia]).
  assert (R0 : 0 <= remaining d now1 e) by (unfold remaining; nia).
  split; [|split].
  - unfold dies. cbn [e_time e_timer]. set (x := msecs_to_jiffies _ (remaining d now1 e)). set (y := get_timeout c p (e_timer e)). unfold u64. rewrite Zplus_mod_idemp_l. f_equal. lia.
  - rewrite Em. pose proof (Z.div_mod (remaining d now1 e + c_hz c - 1) (c_hz c) ltac:(lia)). pose proof (Z.mod_pos_bound (remaining d now1 e + c_hz c - 1) (c_hz c) ltac:(lia)). lia.
  - intros Ed. rewrite Em, Ed. unfold remaining. apply ceil_exact; lia.
Qed.
Print Assumptions C30_round_trip_partial.

(** A session of the example: pool6 64:ff9b::/96. *)
Definition wkp := P6 (0x64ff9b * 2^96) 96.
Definition jsession : sentry := SE (2^125 + 5, 1000) (0x64ff9b * 2^96 + 0xc6336401, 80) (0xc0000201, 5000) (0xc6336401, 80) 0 T_EST 7000 7200000 false.
Definition peer := Cfg 7200000 240000 300000 60000 false false 10 false 1.
Example C30_round_trip_case : good_session wkp TCP jsession /\ remaining 1 12000 jsession = 7195000 /\
  get_session wkp peer 90000000 (put_session 1 12000 TCP jsession) =
    Ok (Some (TCP, SE (e_src6 jsession) (e_dst6 jsession) (e_src4 jsession) (e_dst4 jsession) 0 T_EST (90000000 + 7195000 - 7200000) 7200000 false)).
Proof.
  split; [|vm_compute; auto]. unfold good_session, is_ta6, is_ta4. cbn [jsession e_src6 e_dst6 e_src4 e_dst4 e_state e_timer fst snd].
  split; [split; [split; [discriminate|reflexivity]|lia]|]. split; [split; lia|]. split; [split; lia|]. split; [reflexivity|]. split; [reflexivity|]. split; [lia|discriminate].
Qed.

(** Sessions opened by a SYN from IPv4 have six seconds; the peer is off by 5994 ms. *)
Theorem C30_syn_refuted : exists pool6 e c d now1 now2 e', good_session pool6 TCP e /\ c_hz c = d /\ e_timeout e = get_timeout c TCP (e_timer e) /\
  remaining d now1 e = 6000 /\ get_session pool6 c now2 (put_session d now1 TCP e) = Ok (Some (TCP, e')) /\ dies c TCP e' = now2 + 11994.
Proof.
  exists wkp, (SE (2^125 + 5, 1000) (0x64ff9b * 2^96 + 0xc6336401, 80) (0xc0000201, 5000) (0xc6336401, 80) 2 T_SYN4 12000 6000 false), peer, 1, 12000, 90000000. eexists.
  split; [|split; [reflexivity|split; [vm_compute; reflexivity|split; [vm_compute; reflexivity|split; [vm_compute; reflexivity|vm_compute; reflexivity]]]]].
  unfold good_session, is_ta6, is_ta4. cbn [e_src6 e_dst6 e_src4 e_dst4 e_state e_timer fst snd].
  split; [split; [split; [discriminate|reflexivity]|lia]|]. split; [split; lia|]. split; [split; lia|]. split; [reflexivity|]. split; [reflexivity|]. split; [lia|discriminate].
Qed.
Print Assumptions C30_syn_refuted.

(** Lifetimes of 2^31 ms (24 days) or more do not survive the trip: the kernel
    takes them for endless (2^62 - 2 ticks), and what is left of them is sent modulo 2^32. *)
Theorem C30_long_refuted : exists pool6 e c d now1 now2 e', good_session pool6 TCP e /\ c_hz c = d /\ c_tcp_est c = 2147483648 /\ e_timeout e = get_timeout c TCP (e_timer e) /\
  remaining d now1 e > 2^61 /\ get_session pool6 c now2 (put_session d now1 TCP e) = Ok (Some (TCP, e')) /\ dies c TCP e' = now2 + 5.
Proof.
  exists wkp, (SE (2^125 + 5, 1000) (0x64ff9b * 2^96 + 0xc6336401, 80) (0xc0000201, 5000) (0xc6336401, 80) 0 T_EST 12000 (2^62 - 2) false), (Cfg 2147483648 240000 300000 60000 false false 10 false 1), 1, (12000 + 4294967289), 90000000. eexists.
  split; [|split; [reflexivity|split; [reflexivity|split; [vm_compute; reflexivity|split; [vm_compute; reflexivity|split; [vm_compute; reflexivity|vm_compute; reflexivity]]]]]].
  unfold good_session, is_ta6, is_ta4. cbn [e_src6 e_dst6 e_src4 e_dst4 e_state e_timer fst snd].
  split; [split; [split; [discriminate|reflexivity]|lia]|]. split; [split; lia|]. split; [split; lia|]. split; [reflexivity|]. split; [reflexivity|]. split; [lia|discriminate].
Qed.
Print Assumptions C30_long_refuted.

(** *** Any bytes *)
Lemma read_ok : forall n l, (n <= length l)%nat -> Forall is_u8 l ->
  exists v, read_raw n l = Ok (v, skipn n l) /\ 0 <= v < 256 ^ Z.of_nat n /\ Forall is_u8 (skipn n l) /\ length (skipn n l) = (length l - n)%nat.
Proof.
  intros n l Hn Hf. unfold read_raw. destruct (Nat.ltb_spec (length l) n); [lia|]. eexists. split; [reflexivity|].
  assert (F1 : Forall is_u8 (firstn n l)) by (apply Forall_forall; intros x Hx; rewrite Forall_forall in Hf; apply Hf; rewrite <- (firstn_skipn n l); apply in_or_app; left; exact Hx).
  assert (F2 : Forall is_u8 (skipn n l)) by (apply Forall_forall; intros x Hx; rewrite Forall_forall in Hf; apply Hf; rewrite <- (firstn_skipn n l); apply in_or_app; right; exact Hx).
  pose proof (be_of_bound _ F1) as B. rewrite firstn_length, Nat.min_l in B by lia. split; [exact B|]. split; [exact F2|]. apply skipn_length.
Qed.

Lemma land_mask : forall x n, 0 <= n -> 0 <= Z.land x (2^n - 1) <= 2^n - 1.
Proof. intros x n Hn. rewrite <- Z.ones_equiv || idtac. replace (2^n - 1) with (Z.ones n) by (rewrite Z.ones_equiv; lia). rewrite Z.land_ones by exact Hn. rewrite Z.ones_equiv. pose proof (Z.mod_pos_bound x (2^n) ltac:(apply Z.pow_pos_nonneg; lia)). lia. Qed.

(** Whatever is received is rejected or becomes a session of TCP, UDP or ICMP
    towards the address pool6 has for the IPv4 one, with a TCP timer the state
    machine knows if it is TCP: provided the length is right ([C30_overread_refuted]).
    Nothing else is checked ([C30_state_refuted], [C30_timer_refuted]). *)
Theorem C30_any_bytes_partial : forall pool6 c now l, Forall is_u8 l -> (length l < 32 \/ 36 <= length l)%nat ->
  exists r, get_session pool6 c now l = Ok r /\
  match r with
  | None => True
  | Some (p, e) => (36 <= length l)%nat /\ p <> OTHER /\ (p = TCP -> e_timer e <> T_BAD) /\ 0 <= e_state e <= 7 /\ e_stored e = false /\
      is_ta6 (e_src6 e) /\ is_ta4 (e_src4 e) /\ is_ta4 (e_dst4 e) /\ rfc6052_4to6 pool6 (fst (e_dst4 e)) = Some (fst (e_dst6 e)) /\
      snd (e_dst6 e) = match p with ICMP => snd (e_src6 e) | _ => snd (e_dst4 e) end
  end.
Proof.
  intros pool6 c now l Hf Hl. unfold get_session, SERIALIZED_SESSION_SIZE. destruct (Z.ltb_spec (4 + Z.of_nat (length l)) 36) as [L|L]; [exists None; auto|].
  assert (H36 : (36 <= length l)%nat) by lia. assert (P16 : 256 ^ Z.of_nat 16 = 2^128) by reflexivity. assert (P4 : 256 ^ Z.of_nat 4 = 2^32) by reflexivity. assert (P2 : 256 ^ Z.of_nat 2 = 2^16) by reflexivity.
  destruct (read_ok 16 l ltac:(lia) Hf) as (v1 & -> & B1 & F1 & L1). cbn [bind]. rewrite P16 in B1.
  destruct (read_ok 4 _ ltac:(rewrite L1; lia) F1) as (v2 & -> & B2 & F2 & L2). cbn [bind]. rewrite P4 in B2.
  destruct (read_ok 4 _ ltac:(rewrite L2, L1; lia) F2) as (v3 & -> & B3 & F3 & L3). cbn [bind]. rewrite P4 in B3.
  destruct (read_ok 4 _ ltac:(rewrite L3, L2, L1; lia) F3) as (v4 & -> & B4 & F4 & L4). cbn [bind].
  destruct (read_ok 2 _ ltac:(rewrite L4, L3, L2, L1; lia) F4) as (v5 & -> & B5 & F5 & L5). cbn [bind]. rewrite P2 in B5.
  destruct (read_ok 2 _ ltac:(rewrite L5, L4, L3, L2, L1; lia) F5) as (v6 & -> & B6 & F6 & L6). cbn [bind]. rewrite P2 in B6.
  destruct (read_ok 2 _ ltac:(rewrite L6, L5, L4, L3, L2, L1; lia) F6) as (v7 & -> & B7 & F7 & L7). cbn [bind]. rewrite P2 in B7.
  destruct (read_ok 2 _ ltac:(rewrite L7, L6, L5, L4, L3, L2, L1; lia) F7) as (v8 & -> & B8 & _ & _). cbn [bind].
  destruct (rfc6052_4to6 pool6 v3) as [dst6|] eqn:E6; [|exists None; auto]. cbv zeta.
  set (p := proto_of (Z.land (Z.shiftr v8 5) 3)). set (k := timer_of (Z.land v8 3)). destruct (joold_timeout c p k) as [to|] eqn:Et; [|exists None; auto].
  eexists. split; [reflexivity|]. cbv beta iota. cbn [e_timer e_state e_stored e_src6 e_src4 e_dst4 e_dst6 fst snd]. split; [exact H36|].
  split; [intros X; rewrite X in Et; discriminate|]. split; [intros X Y; rewrite X, Y in Et; discriminate|]. split; [exact (land_mask (Z.shiftr v8 2) 3 ltac:(lia))|].
  split; [reflexivity|]. split; [split; assumption|]. split; [split; assumption|]. split; [split; assumption|]. split; [exact E6|]. destruct p; reflexivity.
Qed.
Print Assumptions C30_any_bytes_partial.
Example C30_any_bytes_case : exists e, get_session wkp peer 5000 (octets 16 (2^125 + 5) ++ octets 4 3221225985 ++ octets 4 3325256705 ++ octets 4 9000 ++ octets 2 1000 ++ octets 2 5000 ++ octets 2 80 ++ octets 2 (32 + 0)) = Ok (Some (UDP, e)) /\ e_dst6 e = e_dst6 jsession /\
  get_session wkp peer 5000 (repeat 255 36) = Ok None /\ get_session wkp peer 5000 [1; 2; 3] = Ok None.
Proof. eexists. split; [vm_compute; reflexivity|]. vm_compute. auto. Qed.

(** A payload of 32 bytes is accepted and read as if it had 36. *)
Theorem C30_overread_refuted : exists l, Forall is_u8 l /\ length l = 32%nat /\ get_session wkp peer 5000 l = UB.
Proof. exists (repeat 0 32). split; [apply Forall_forall; intros x Hx; apply repeat_spec in Hx; subst x; unfold is_u8; lia|]. split; [reflexivity|]. vm_compute. reflexivity. Qed.
Print Assumptions C30_overread_refuted.

(** The state is not checked (there is no state 7)... *)
Theorem C30_state_refuted : exists l e, Forall is_u8 l /\ length l = 36%nat /\ get_session wkp peer 5000 l = Ok (Some (TCP, e)) /\ ~ valid_state (e_state e).
Proof.
  exists (repeat 0 35 ++ [28]). eexists. split; [apply Forall_app; split; [apply Forall_forall; intros x Hx; apply repeat_spec in Hx; subst x; unfold is_u8; lia|constructor; [unfold is_u8; lia|constructor]]|].
  split; [reflexivity|]. split; [vm_compute; reflexivity|]. unfold valid_state. cbn [e_state]. lia.
Qed.
Print Assumptions C30_state_refuted.
(** ... nor is the timer, if it is not TCP: this UDP session gets in line with those
    that expire after 0 ms. *)
Theorem C30_timer_refuted : exists l e, Forall is_u8 l /\ length l = 36%nat /\ get_session wkp peer 5000 l = Ok (Some (UDP, e)) /\ ~ timer_fits UDP (e_timer e) /\
  exists t evs i s, bib_add_session peer UDP init_table e 5000 [] = Ok (OK, t, evs) /\ sess t i = Some s /\ s_exp s = T_TRANS /\ get_timeout peer UDP (s_exp s) = 0.
Proof.
  exists (repeat 0 35 ++ [33]). eexists. split; [apply Forall_app; split; [apply Forall_forall; intros x Hx; apply repeat_spec in Hx; subst x; unfold is_u8; lia|constructor; [unfold is_u8; lia|constructor]]|].
  split; [reflexivity|]. split; [vm_compute; reflexivity|]. split; [discriminate|]. eexists _, _, 0, _. split; [vm_compute; reflexivity|]. split; [vm_compute; reflexivity|]. split; reflexivity.
Qed.
Print Assumptions C30_timer_refuted.

(** *** Into the peer's BIB *)
(** The peer has no other use for the two addresses, and no session towards that
    destination: then it has the session, in the same state and timer, as old as in
    the message. *)
Lemma sync_adds : forall c p t e now, reachable p t -> e_timer e <> T_BAD ->
  (forall s4 st, has t (e_src6 e) s4 st -> s4 = e_src4 e) -> (forall s6 st, has t s6 (e_src4 e) st -> s6 = e_src6 e) ->
  ~ (exists s6 d6 , has_session t s6 (e_src4 e) d6 (e_dst4 e)) -> (p = ICMP -> snd (e_dst4 e) = snd (e_src4 e)) ->
  exists t' evs i s b, bib_add_session c p t e now [] = Ok (OK, t', evs) /\ inv [] t' /\ sess t' i = Some s /\ bibs t' (s_bib s) = Some b /\
    b_src6 b = e_src6 e /\ b_src4 b = e_src4 e /\ s = TS (e_dst6 e) (e_dst4 e) (e_state e) (s_bib s) (e_time e) (e_timer e) None.
Proof.
  intros c p t e now R Hk H6 H4 Hs Hicmp. destruct (reach_inv p t R) as [I _].
  set (w := New (e_src6 e) (e_src4 e) (e_dst6 e) (e_dst4 e) (e_state e) (e_time e)).
  destruct (bib_add_session_ok c p t e now [] I) as [E|(x & t' & evs & f & evs2 & E & _ & I' & _ & _ & _ & X)].
  { exfalso. revert E. unfold bib_add_session. cbn [alloc_bib_session draw_alloc]. fold w. destruct (find6_ok p t None w now [] I Logic.I) as (y & f & m & -> & F). cbn [bind].
    destruct y as [|y]; [|inversion F as [| | | |? ? ? Ey]; subst y; intros E; discriminate].
    destruct (f_sess f) as [sid|].
    - destruct (decide_fate _ _ _ _ _ _ _ _) as [[[[? ?] ?] ?]| |]; discriminate.
    - destruct (e_timer e); try discriminate; (destruct (before_newer _ _ _ _); cbn [bind]; try discriminate; destruct (link_new _ _ _ _) as [[? ?]| |]; cbn [bind]; discriminate). }
  fold w in X.
  assert (Free : forall i b, bibs t i = Some b -> b_src4 b = e_src4 e -> b_src6 b = e_src6 e) by (intros i b Hb E4; apply (H4 (b_src6 b) (b_static b)); exists i, b; auto).
  destruct X as [(y & -> & F & _ & _)|[F X]].
  { exfalso. inversion F as [| | | |y' P Ex Ey Hn]. destruct P. cbn [exhausted] in Ex. destruct Ex as (i & Hi & Ek). destruct p_bdl as [B|(bid & b & _ & _ & _ & B)]; [|discriminate].
    rewrite B in p_t4. rewrite drop_nil in p_t4. unfold key4 in Ek. rewrite p_bibs in Ek. apply Hn. exists i. split; [exact Hi|]. unfold key6.
    assert (Hi' : In i (tree4 t)) by (rewrite p_t4 in Hi; exact Hi). apply (in_tree4 t i I) in Hi'. destruct Hi' as [b Hb]. rewrite Hb in *. apply (Free i b Hb). exact Ek. }
  assert (Fo : f_sess f = None /\ w_src6 (f_new f) = e_src6 e /\ w_dst6 (f_new f) = e_dst6 e /\ w_dst4 (f_new f) = e_dst4 e /\ w_state (f_new f) = e_state e /\
    match f_bib f with Some bid => f_t f = t /\ exists b, bibs t bid = Some b /\ b_src4 b = e_src4 e | None => w_src4 (f_new f) = e_src4 e end).
  { inversion F as [bid b E1 E2 E3 E4 E5 E6 E7 E8 E9 E10|bid sid' Hp E1 E2 E3 E4 U E5|P E1 E2 E3 B6 B4 Hc Hw|x0 P E1 St E2 E3|].
    - assert (Eb : b_src4 b = e_src4 e) by (apply (H6 (b_src4 b) (b_static b)); exists bid, b; auto).
      assert (Ec : completed p w (b_src4 b) = w).
      { rewrite Eb. unfold completed. destruct p; try reflexivity. unfold w, new_dst4. cbn. rewrite <- (Hicmp eq_refl). destruct (e_dst4 e); reflexivity. }
      rewrite Ec in E9. rewrite E9 in *. split; [|cbn; rewrite E4; split; [reflexivity|]; split; [reflexivity|]; split; [reflexivity|]; split; [reflexivity|]; split; [exact E1|]; eauto].
      destruct (f_sess f) as [sid|] eqn:Ef; [|reflexivity]. exfalso. cbn [hit] in E10. destruct E10 as [N K]. apply nth_error_In in N. apply (ibs _ _ I _ _ E5) in N. destruct N as (s & Hs0 & Hb).
      apply Hs. exists (b_src6 b), (s_dst6 s), sid, s, b. unfold keys in K. rewrite Hs0 in K. rewrite Hb. auto 10.
    - exfalso. destruct U as [_ _ (t0 & n & b' & _ & _ & _ & _ & _ & _ & _ & _ & Hm & _)]. apply Hm. reflexivity.
    - rewrite Hw. rewrite E1. split; [exact E2|]. cbn. auto 10.
    - exfalso. destruct St as (_ & Hm & _). apply Hm. reflexivity. }
  destruct Fo as (F1 & F2 & F3 & F4 & F5 & F6).
  destruct X as [(sid & s & b & _ & Ef & _)|[(_ & Hb & _)|(_ & _ & -> & sid & s & b' & m & C & _)]]; [congruence|congruence|].
  destruct C as [_ _ Ca Cs C6 Cb _ _]. destruct Ca.
  eexists t', _, sid, s, b'. split; [exact E|]. split; [exact I'|]. split; [rewrite a_sess, Z.eqb_refl; reflexivity|]. split; [rewrite a_bibs, Z.eqb_refl; reflexivity|].
  split; [congruence|]. split; [|rewrite F3, F4, F5 in Cs; exact Cs].
  destruct (f_bib f) as [bid|]; [|destruct Cb as [_ Cb]; congruence]. destruct Cb as [Cb _]. destruct F6 as (Ft & b & Hb & Eb). rewrite Ft, Cb, Hb in a_b. destruct a_b as (_ & _ & a_b & _). congruence.
Qed.

(** The sender's session [e], as message, makes the peer have it. *)
Theorem C30_synchronised : forall pool6 p e c d now1 now2 s, good_session pool6 p e -> e_timer e <> T_SYN4 -> 1 <= d -> 1 <= c_hz c -> 0 <= now1 < 2^64 -> remaining d now1 e < 2^31 ->
  (p = ICMP -> snd (e_dst4 e) = snd (e_src4 e)) -> reachable_db s ->
  (forall s4 st, has (get_table s p) (e_src6 e) s4 st -> s4 = e_src4 e) -> (forall s6 st, has (get_table s p) s6 (e_src4 e) st -> s6 = e_src6 e) ->
  ~ (exists s6 d6, has_session (get_table s p) s6 (e_src4 e) d6 (e_dst4 e)) ->
  exists s' evs i x b, joold_sync pool6 c s now2 [(put_session d now1 p e, [])] = Ok (s', evs) /\ inv [] (get_table s' p) /\
    sess (get_table s' p) i = Some x /\ bibs (get_table s' p) (s_bib x) = Some b /\
    b_src6 b = e_src6 e /\ b_src4 b = e_src4 e /\ s_dst6 x = e_dst6 e /\ s_dst4 x = e_dst4 e /\ s_state x = e_state e /\ s_exp x = e_timer e /\
    exists wait, u64 (s_time x + get_timeout c p (s_exp x)) = u64 (now2 + wait) /\ remaining d now1 e <= c_hz c * wait < remaining d now1 e + c_hz c.
Proof.
  intros pool6 p e c d now1 now2 s G Hk Hd Hc Hn Hr Hi R H6 H4 Hs.
  destruct (C30_round_trip_partial pool6 p e c d now1 now2 G Hk Hd Hc Hn Hr) as (e' & E & (S1 & S2 & S3 & S4 & S5 & S6) & _ & wait & D & W & _).
  assert (Hp : p <> OTHER /\ reachable p (get_table s p) /\ e_timer e <> T_BAD).
  { destruct G as (_ & _ & _ & _ & _ & _ & T). destruct R as (R1 & R2 & _ & R3). destruct p; cbn [timer_fits] in T; cbn [get_table]; try contradiction; (split; [discriminate|]; split; [assumption|]); congruence. }
  destruct Hp as (Hp & Rt & Hb). rewrite <- S1 in H6. rewrite <- S3 in H6, H4, Hs. rewrite <- S1 in H4. rewrite <- S4 in Hs.
  destruct (sync_adds c p (get_table s p) e' now2 Rt ltac:(congruence) H6 H4 Hs ltac:(rewrite S3, S4; exact Hi)) as (t' & evs & i & x & b & Ea & I' & X1 & X2 & X3 & X4 & X5).
  cbn [joold_sync]. rewrite E. cbn [bind]. rewrite Ea. cbn [bind]. exists (set_table s p t'), (evs ++ []), i, x, b. split; [reflexivity|].
  assert (Et : get_table (set_table s p t') p = t') by (destruct p; try reflexivity; congruence). rewrite Et. split; [exact I'|]. split; [exact X1|]. split; [exact X2|]. split; [congruence|]. split; [congruence|].
  rewrite X5. cbn [s_dst6 s_dst4 s_state s_exp s_time]. split; [exact S2|]. split; [exact S4|]. split; [exact S5|]. split; [exact S6|]. exists wait. split; [exact D|exact W].
Qed.
Print Assumptions C30_synchronised.
Example C30_synchronised_case : let s := Db init_table init_table init_table in
  (forall s4 st, ~ has (get_table s TCP) (e_src6 jsession) s4 st) /\ ~ (exists s6 d6, has_session (get_table s TCP) s6 (e_src4 jsession) d6 (e_dst4 jsession)) /\
  exists s' evs x, joold_sync wkp peer s 90000000 [(put_session 1 12000 TCP jsession, [])] = Ok (s', evs) /\ sess (d_tcp s') 0 = Some x /\ s_dst6 x = e_dst6 jsession /\ s_time x + 7200000 = 90000000 + 7195000.
Proof.
  split; [intros s4 st (i & b & H & _); discriminate|]. split; [intros (s6 & d6 & j & x & b & H & _); discriminate|].
  eexists _, _, _. split; [vm_compute; reflexivity|]. split; [vm_compute; reflexivity|]. split; reflexivity.
Qed.
