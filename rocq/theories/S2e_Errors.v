(** C91: ICMP errors through the stateless translator, from octets to octets. *)
Require Import Verif.Base Verif.Nat64_Model Verif.Addr_Model Verif.Addr_Spec Verif.Addr_Properties Verif.Rtrie_Model Verif.Pool4_Model Verif.Eam_Model Verif.Eam_Spec
  Verif.Deny_Model Verif.Deny_Spec Verif.Siit_Model Verif.Siit_Spec Verif.Siit_Proofs Verif.Siit_Properties.
Require Import Verif.Csum_Model Verif.Csum_Spec Verif.Csum_Proofs Verif.Csum_Properties Verif.Pkt_Model Verif.Pkt_Spec Verif.Pkt_Proofs Verif.Pkt_Properties
  Verif.Hdr_Model Verif.Hdr_Spec Verif.Hdr_Proofs Verif.Hdr_Properties Verif.Ext_Model Verif.Ext_Spec Verif.Xlat_Model Verif.Xlat_Spec Verif.Xlat_Proofs Verif.Xlat_Proofs46
  Verif.Xlat_Properties Verif.Icmperr_Spec Verif.Icmperr_Properties Verif.Trip_Spec Verif.Trip_Proofs Verif.E2e_Model Verif.E2e_Out Verif.E2e_Back
  Verif.S2e_Model Verif.S2e_Spec Verif.S2e_Proofs Verif.S2e_Properties.
Local Ltac Zify.zify_post_hook ::= idtac.

(** ** What is expected *)

(** Who tells: the address the router [r] has on the other side, if it has one (in
    "simple" mode maybe not that of its mapping), else one of the pool for such
    routers, else one of this node. *)
Definition teller6 (c : site) (u : luck) (r s6 : Z) : Prop :=
  (exists h, represents c s6 r h \/ represents (unmapped c) s6 r h) \/ mask6 c s6 \/ u_host u = Some s6.
Definition teller4 (c : site) (u : luck) (r s4 : Z) : Prop :=
  (exists h, stands_for c r s4 h) \/ mask4 c s4 \/ u_host u = Some s4.

(** The ICMPv4 error [m], about the packet at [q], became [o], from [s6] to [d6], about a packet
    from [is6] to [id6] (see C77). *)
Definition told6 (w : env46) (m : list Z) (up q : nat) (s6 d6 is6 id6 : Z) (o : list Z) : Prop :=
  1 < oct m 8
  /\ (forall o, at_opt m up 20 o -> source_route m o -> exists o', (o' <= o)%nat /\ at_opt m up 20 o' /\ source_route m o' /\ ~ unexpired m o')
  /\ (y_sum w = CS_NONE -> checks (skipn up m))
  /\ (length o <= 1280)%nat /\ 1280 <= Z.min (y_mtu w) (y_lim w) /\ Forall is_u8 o
  /\ ipv6_header o 0 (tos_of (y_reset w) 0 (oct m 1)) (Z.of_nat (length o) - 40) 58 (oct m 8 - 1) s6 d6
  /\ ok6 s6 d6 58 (skipn 40 o) /\ becomes rules46 (oct m up) (oct m (up + 1)) (oct o 40) (oct o 41)
  /\ rest46 (y_plateaus w) (y_inmtu w) (y_mtu w) (word m (q + 2)) (skipn up m) (skipn 40 o)
  /\ exists inn l3', inner_packet46 None (tos_of (y_reset w) 0 (oct m (q + 1))) is6 id6 m q l3' inn
     /\ carried46 m up (ihl m q) l3' inn o.
Definition untold46 (w : env46) (m : list Z) (up q : nat) (x : xres unit) : Prop :=
  let p' := oct m (q + 9) in let up' := (q + ihl m q)%nat in
  match x with
  | XOk _ | XUB => False
  | XIcmp j r i => (j = J46_TTL /\ r = E_TTL /\ i = 0 /\ oct m 8 <= 1)
      \/ (j = J46_SRC_ROUTE /\ r = E_SRC_ROUTE /\ i = 0 /\ exists o, at_opt m up 20 o /\ source_route m o /\ unexpired m o)
  | XDrop j => (forall t c, ~ becomes rules46 (oct m up) (oct m (up + 1)) t c)
      \/ (oct m up = 12 /\ forall p, ~ points pointers46 (oct m (up + 4)) p)
      \/ (j = J46_BAD_MTU /\ Z.min (y_mtu w) (y_lim w) < 1280)
      \/ (j = J46_ICMP_CSUM /\ y_sum w = CS_NONE /\ ~ checks (skipn up m))
      \/ (j = J_UNKNOWN_ICMP4_TYPE /\ p' = 1 /\ forall t c, ~ becomes rules46 (oct m up') (oct m (up' + 1)) t c)
      \/ (j = J46_UDP_CSUM0 /\ p' = 17 /\ word m (up' + 6) = 0 /\ (fr4_more m q \/ y_amend w = false))
      \/ (j = J_ICMPEXT_BIG /\ Z.of_nat (length m - (up + 8)) < attr4 m up)
  end.
(** The same, from IPv6 *)
Definition told4 (w : env64) (m : list Z) (hs : list (Z * nat)) (up q : nat) (hs' : list (Z * nat)) (p' : Z) (up' : nat) (s4 d4 is4 id4 : Z) (o : list Z) : Prop :=
  1 < oct m 7 /\ routing_done m hs /\ (x_sum w = CS_NONE -> ok6 (field m 8 16) (field m 24 16) 58 (skipn up m))
  /\ (length o <= 576)%nat /\ Forall is_u8 o
  /\ ipv4_header o 0 (kept (dscp_only (x_tos w)) (tos_of (reset_tos (x_tos w)) (new_tos (x_tos w)) (tclass m 0)))
       (Z.of_nat (length o)) (x_id w) False False 0 (oct m 7 - 1) 1 s4 d4
  /\ checks (skipn 20 o) /\ becomes rules64 (oct m up) (oct m (up + 1)) (oct o 20) (oct o 21)
  /\ rest64 (x_inmtu w) (x_mtu w) (skipn up m) (skipn 20 o)
  /\ exists inn, inner_packet64 None (tos_of (reset_tos (x_tos w)) (new_tos (x_tos w)) (tclass m q)) (x_id' w) is4 id4 m q hs' p' up' inn
     /\ carried64 m up up' inn o.
Definition untold64 (w : env64) (m : list Z) (hs : list (Z * nat)) (up up' : nat) (p' : Z) (x : xres unit) : Prop :=
  match x with
  | XOk _ | XUB => False
  | XIcmp j r i => (j = J64_TTL /\ r = E_TTL /\ i = 0 /\ oct m 7 <= 1)
      \/ (j = J64_SEGMENTS_LEFT /\ r = E_HDR_FIELD /\ exists q, where_is 43 hs = Some q /\ oct m (q + 3) <> 0 /\ i = Z.of_nat (q + 3))
  | XDrop j => (forall t c, ~ becomes rules64 (oct m up) (oct m (up + 1)) t c)
      \/ (oct m up = 4 /\ oct m (up + 1) = 0 /\ forall p, ~ points pointers64 (rest (skipn up m)) p)
      \/ (j = J64_ICMP_CSUM /\ x_sum w = CS_NONE /\ ~ ok6 (field m 8 16) (field m 24 16) 58 (skipn up m))
      \/ (j = J_UNKNOWN_ICMP6_TYPE /\ p' = 58 /\ forall t c, ~ becomes rules64 (oct m up') (oct m (up' + 1)) t c)
      \/ (j = J_ICMPEXT_BIG /\ Z.of_nat (length m - (up + 8)) < attr6 m up)
  end.

(** ** From IPv4 *)

Lemma inner_error4 : forall m l q pay', inner4 m q pay' -> (pay' <= l)%nat -> (l <= length m)%nat ->
  oct m (q + 9) <> 58 -> (oct m (q + 9) = 1 -> ~ icmp4_error_type (oct m (q + ihl m q))) -> (oct m (q + 9) = 6 -> 5 <= oct m (q + ihl m q + 12) / 16) ->
  (q + 20 <= l)%nat /\ inner_error is_icmp4_error l m (oct m (q + 9)) (q + ihl m q) = Ok false.
Proof.
  intros m l q pay' (I1 & I2 & I3 & I4 & I5 & (T6 & T8 & To) & I7) PL LL P58 NE DO. set (up := (q + ihl m q)%nat) in *. set (p := oct m (q + 9)) in *.
  assert (UQ : (up <= pay')%nat).
  { destruct (Z.eq_dec p 6) as [E|E]; [destruct (T6 E); lia|]. destruct (Z.eq_dec p 17) as [E1|E1]; [rewrite T8 by tauto; lia|]. destruct (Z.eq_dec p 1) as [E2|E2]; [rewrite T8 by tauto; lia|rewrite To by assumption; lia]. }
  split; [unfold up in UQ; lia|]. unfold inner_error. destruct (p =? 6) eqn:E6.
  - apply Z.eqb_eq in E6. specialize (DO E6). destruct (T6 E6) as [A B]. rewrite direct_ok by lia. cbn [bind]. rewrite E6. reflexivity.
  - cbn [bind]. destruct (p =? 1) eqn:E1; cbn [orb].
    + apply Z.eqb_eq in E1. rewrite T8 in PL by tauto. rewrite direct_ok by lia. cbn [bind]. change byte with oct. f_equal.
      destruct (is_icmp4_error (oct m up)) eqn:X; [|reflexivity]. elim (NE E1). unfold icmp4_error_type. unfold is_icmp4_error in X. cbn [In]. lia.
    + replace (p =? 58) with false by lia. reflexivity.
Qed.

(** [R] tells [S6] about a packet which [S6] sent to [D6], and which left as sent by [s4] to
    [d4]. True except of what C77_46 leaves out, and of "simple" mode if a mapping says what
    [D6] is (C70 is about that). *)
Theorem C91_error4_partial : forall st c u w m lin up q S6 h6 D6 hd, view st c -> wf_site c -> wt_luck u -> (forall h, u_host u = Some h -> is_u128 h) ->
  world46 w up -> Forall is_u8 m -> (lin <= length m)%nat -> packet4 m 1 up q -> icmp4_error_type (oct m up) ->
  let p' := oct m (q + 9) in let up' := (q + ihl m q)%nat in
  (96 <= length (y_head w) + up')%nat -> (20 <= up)%nat -> options m up 20 -> Z.of_nat (length m) <= 65527 ->
  (p' = 1 -> ~ icmp4_error_type (oct m up')) -> p' <> 58 -> (p' = 6 -> 5 <= oct m (up' + 12) / 16) -> y_sum w <> CS_PARTIAL ->
  (attr4 m up <> 0 -> Z.of_nat (ihl m q) <= attr4 m up) ->
  let s4 := field m (q + 12) 4 in let d4 := field m (q + 16) 4 in
  field m 16 4 = s4 -> represents c S6 s4 h6 -> represents c D6 d4 hd -> permitted c s4 h6 -> permitted c d4 hd ->
  (s_mode st = EHM_SIMPLE -> exists p, hd = ByPool6 p) ->
  exists r, siit4 st u w true m lin = Ok r /\
    match r with
    | SPackets6 outs => exists o s6, outs = [o] /\ teller6 c u (field m 12 4) s6 /\ told6 w m up q s6 S6 S6 D6 o
    | SRefused drop _ => if drop then u_host u = None /\ teller6 c u (field m 12 4) 0
        else u_route u = false \/ denylisted c (field m 12 4)
    | SFailed x => untold46 w m up q x
    | _ => False
    end.
Proof.
  intros st c u w m lin up q S6 h6 D6 hd V W Lu HU Wo F L PK ER p' up' HR UP OPT LEN NE P58 DO NP AT s4 d4 EQ Rs Rd Ps Pd M.
  destruct (C62_accepts m lin 1 up q L PK) as (mt & l & G & <- & <-). set (up := l4off mt) in *. set (q := payoff mt) in *.
  assert (P9 : oct m 9 = 1) by (destruct PK as (_ & X & _); congruence). assert (L20 : (20 <= length m)%nat) by (destruct PK; assumption).
  pose proof (parse_view4 true m lin mt l L G) as V4'. rewrite P9 in V4'.
  destruct (w_inner _ _ _ _ _ V4' eq_refl ER) as (pay' & IN & PL). fold q in IN. pose proof (w_lin _ _ _ _ _ V4') as [_ LL].
  destruct (inner_error4 m l q pay' IN PL LL P58 NE DO) as [Q20 IE].
  assert (Us : is_u32 s4) by (apply field_u32; [exact F|lia]). assert (Ud : is_u32 d4) by (apply field_u32; [exact F|lia]).
  pose proof Ps as (Ps1 & Ps2 & Ps3). pose proof Pd as (Pd1 & Pd2 & Pd3).
  assert (F3 : forall chk, addrxlat_siit46 st s4 true chk = Ok (Siit_Model.XContinue S6 (meth h6))).
  { intros chk. apply (x46 st c); auto. }
  assert (G3 : forall eam chk, (eam = false -> exists p, hd = ByPool6 p) -> addrxlat_siit46 st d4 eam chk = Ok (Siit_Model.XContinue D6 (meth hd))).
  { intros eam chk He. apply (x46 st c); auto. destruct eam; [exact Rd|]. destruct (He eq_refl) as (p & ->). inversion Rd; subst. constructor; auto. }
  assert (E4 : error4 m mt = true) by (apply (a_error m lin l mt 1 V4'); split; [reflexivity|exact ER]).
  unfold siit4. rewrite G. unfold translating46, addresses46. rewrite E4. cbn [andb]. fold q.
  replace (if (s_mode st =? EHM_SIMPLE) || false then direct l (q + 16) 4 else Ok tt) with (Ok tt : res unit) by (rewrite direct_ok by lia; destruct (_ || _); reflexivity).
  cbn [bind]. rewrite leg4_zero by exact L20. rewrite EQ.
  (* outside *)
  assert (OUT : exists o, translate_addrs46_siit st u false (Leg (field m 12 4) s4 true (oct m 8)) (be32 m (q + 16)) false = Ok o /\
     match o with Siit_Model.Continue (s6, d6) => d6 = S6 /\ is_u128 s6 /\ teller6 c u (field m 12 4) s6
       | Siit_Model.Untranslatable _ => denylisted c (field m 12 4) | Siit_Model.Drop _ => False end).
  { unfold translate_addrs46_siit. cbn [l_src l_dst l_err]. unfold disable_dst_eam. rewrite andb_false_r. cbn [negb]. rewrite F3. cbn [bind].
    assert (Ur : is_u32 (field m 12 4)) by (apply field_u32; [exact F|lia]).
    match goal with |- context [addrxlat_siit46 st (field m 12 4) ?e false] => set (ee := e) end.
    destruct (one46 st c (field m 12 4) ee false V W Ur) as (vs & -> & X). cbn [bind]. destruct vs as [s6 ms| | |]; [| | |destruct X].
    - destruct X as (U6 & h & _ & R & _). eexists. split; [reflexivity|]. split; [reflexivity|]. split; [exact U6|]. left. exists h. destruct ee; [left|right]; exact R.
    - eexists. split; [reflexivity|]. pose proof (mask6_find st c u V W Lu) as K. split; [reflexivity|]. split; [|right; left; exact K].
      unfold mask6 in K. destruct (t_6791v6 c); [apply K|rewrite K; unfold is_u128; lia].
    - eexists. split; [reflexivity|]. destruct X as [[X _]|[X _]]; [discriminate|exact X]. }
  destruct OUT as (o & -> & X). cbn [bind]. destruct o as [[s6 d6]|s|s]; [|(eexists; split; [reflexivity|]; right; exact X)|destruct X].
  destruct X as (-> & U6 & TL).
  (* whether there is a packet inside *)
  assert (HI : match has_inner46 l m mt with XOk b => b = true | XDrop _ => forall t c, ~ becomes rules46 (oct m up) (oct m (up + 1)) t c | _ => False end).
  { unfold has_inner46. change byte with oct. rewrite P9. change (xlat_nexthdr 1 =? 58) with true. cbv iota. fold up.
    pose proof PK as (_ & _ & _ & TE & _ & _ & W1). destruct (W1 eq_refl) as (A & B & C & _). destruct (TE A) as (_ & T2 & _). pose proof (w_pay _ _ _ _ _ V4') as Vp. fold q in Vp. rewrite T2 in Vp by auto.
    rewrite direct_ok by lia. cbn [of_res xbind]. rewrite type46_applied by (apply oct_u8; exact F).
    destruct (applied rules46 (oct m up) (oct m (up + 1))) as [[t c0]|] eqn:AP; cbn [xbind].
    - unfold icmp4_error_type in ER. cbn [In] in ER. lia.
    - apply applied_none; [exact disjoint46|exact AP]. }
  destruct (has_inner46 l m mt) as [b|j|j rr i|]; [|cbn [failed]|destruct HI|destruct HI].
  2: { eexists. split; [reflexivity|]. left. exact HI. }
  subst b. fold q. rewrite direct_ok by lia. cbn [bind]. change byte with oct. rewrite ip_hlen_ihl. rewrite IE. cbn [bind].
  assert (LG : leg4_at m q false = Leg s4 d4 false (oct m (q + 8))) by (unfold leg4_at; rewrite !be32_field by lia; reflexivity). rewrite LG.
  assert (IT : translate_addrs46_siit st u true (Leg s4 d4 false (oct m (q + 8))) 0 false = Ok (Siit_Model.Continue (S6, D6))).
  { eapply t46; [reflexivity|reflexivity| |]; unfold disable_dst_eam, disable_src_eam; rewrite ?orb_false_r, ?andb_true_r, ?orb_true_r; cbn [negb l_err].
    + apply G3. destruct (s_mode st =? EHM_SIMPLE) eqn:E; [intros _; apply M; apply Z.eqb_eq; exact E|discriminate].
    + apply F3. }
  rewrite IT. cbn [bind]. unfold predict_route46. cbn [a_src k_outer l_err negb a_dst a_inner].
  destruct (u_route u) eqn:R; cbn [negb]. 2: { eexists. split; [reflexivity|]. left. reflexivity. }
  assert (FIN : forall s, is_u128 s -> teller6 c u (field m 12 4) s ->
    exists r, match Xlat_Model.xlat46 (senv46 w false (y_sum w) (Addrs s S6 (Some (S6, D6)))) l m mt with XUB => UB | XOk outs => Ok (SPackets6 outs) | x => Ok (SFailed (failed x)) end = Ok r /\
    match r with
    | SPackets6 outs => exists o s6, outs = [o] /\ teller6 c u (field m 12 4) s6 /\ told6 w m up q s6 S6 S6 D6 o
    | SRefused drop _ => if drop then u_host u = None /\ teller6 c u (field m 12 4) 0 else true = false \/ denylisted c (field m 12 4)
    | SFailed x => untold46 w m up q x
    | _ => False
    end).
  { intros s Us6 Ts. pose proof (rep_u128 _ _ _ _ Rs) as U1. pose proof (rep_u128 _ _ _ _ Rd) as U2.
    pose proof (C77_46_partial (senv46 w false (y_sum w) (Addrs s S6 (Some (S6, D6)))) true m lin mt l F L G (senv46_ok w false (y_sum w) (Addrs s S6 (Some (S6, D6))) up Wo Us6 U1) U1 U2 P9 ER HR UP OPT LEN NE P58 DO ltac:(intros _ a b Y; discriminate Y) NP AT) as X.
    cbv zeta in X. fold up q in X.
    destruct (Xlat_Model.xlat46 (senv46 w false (y_sum w) (Addrs s S6 (Some (S6, D6)))) l m mt) as [outs|j|j rr i|]; [| | |destruct X]; (eexists; split; [reflexivity|]); cbn [failed untold46].
    - destruct X as (o & -> & X). exists o, s. split; [reflexivity|]. split; [exact Ts|]. cbn [senv46 y_hairpin y_sum y_mtu y_lim y_reset y_src y_dst a_src a_dst a_inner y_plateaus y_inmtu y_src' y_dst' y_ports fst snd rev_ports] in X.
      destruct X as (X1 & X2). split; [exact (X1 eq_refl)|exact X2].
    - cbn [senv46 y_sum y_mtu y_lim y_ports y_amend] in X. fold p' up' in X |- *. destruct X as [X|[X|[X|[X|[X|[X|X]]]]]]; auto 10. do 5 right. left. tauto.
    - cbn [senv46 y_hairpin] in X. tauto. }
  destruct (s6 =? 0) eqn:Z6.
  - apply Z.eqb_eq in Z6. subst s6. destruct (u_host u) as [h|] eqn:EH.
    + apply FIN; [apply HU; reflexivity|right; right; exact EH].
    + eexists. split; [reflexivity|]. split; [reflexivity|exact TL].
  - apply FIN; [exact U6|exact TL].
Qed.
Print Assumptions C91_error4_partial.

(** ** From IPv6 *)

Lemma inner_error6 : forall m l q hs p up pay, inner6 m q hs p up pay -> (pay <= l)%nat -> (l <= length m)%nat -> p <> 1 -> (p = 6 -> 5 <= oct m (up + 12) / 16) ->
  (q + 40 <= l)%nat /\ inner_error is_icmp6_error l m p up = Ok false.
Proof.
  intros m l q hs p up pay (I1 & I2 & C & FP & (T6 & T8 & To) & I7 & NE) PL LL P1 DO. pose proof (chain_le _ _ _ _ _ _ C) as CL.
  assert (UQ : (up <= pay)%nat).
  { destruct (Z.eq_dec p 6) as [E|E]; [destruct (T6 E); lia|]. destruct (Z.eq_dec p 17) as [E1|E1]; [rewrite T8 by tauto; lia|]. destruct (Z.eq_dec p 58) as [E2|E2]; [rewrite T8 by tauto; lia|rewrite To by assumption; lia]. }
  split; [lia|]. unfold inner_error. destruct (p =? 6) eqn:E6.
  - apply Z.eqb_eq in E6. specialize (DO E6). destruct (T6 E6) as [A B]. rewrite direct_ok by lia. cbn [bind]. rewrite E6. reflexivity.
  - cbn [bind]. replace (p =? 1) with false by lia. cbn [orb]. destruct (p =? 58) eqn:E1; [|reflexivity].
    apply Z.eqb_eq in E1. rewrite T8 in PL by tauto. rewrite direct_ok by lia. cbn [bind]. change byte with oct. f_equal.
    destruct (is_icmp6_error (oct m up)) eqn:X; [|reflexivity]. elim (NE E1). unfold icmp6_error_type. unfold is_icmp6_error in X. cbn [In]. lia.
Qed.

(** [R] tells [D6] about a packet which arrived at [S6] as sent by [D6], and which [d4] had
    sent to [s4]. True except of what C77_64 leaves out. *)
Theorem C91_error6_partial : forall st c u u2 nm w w2 m lin hs up q hs' p' up' pay' s4 h4 d4 hd, view st c -> wf_site c -> pool6_clear c -> wt_luck u -> (forall h, u_host u = Some h -> is_u32 h) ->
  world64 w -> is_u16 (x_id' w) -> Forall is_u8 m -> (lin <= length m)%nat -> packet6 m hs 58 up q -> icmp6_error_type (oct m up) -> inner6 m q hs' p' up' pay' ->
  where_is 44 hs = None -> where_is 44 hs' = None -> p' <> 1 -> (p' = 6 -> 5 <= oct m (up' + 12) / 16) -> x_sum w <> CS_PARTIAL ->
  (attr6 m up <> 0 -> Z.of_nat (up' - q) <= attr6 m up) ->
  let D6 := field m (q + 8) 16 in let S6 := field m (q + 24) 16 in let R6 := field m 8 16 in
  field m 24 16 = D6 -> is_u32 s4 -> is_u32 d4 -> represents c S6 s4 h4 -> represents c D6 d4 hd -> S6 <> loopback6 -> D6 <> loopback6 -> permitted c s4 h4 -> permitted c d4 hd ->
  exists r, siit6 st u u2 nm w w2 true m lin = Ok r /\
    match r with
    | SPacket4 o => exists r4, teller4 c u R6 r4 /\ told4 w m hs up q hs' p' up' r4 d4 d4 s4 o
    | SRefused drop _ => if drop then u_host u = None /\ teller4 c u R6 0 else u_route u = false \/ R6 = loopback6
    | SFailed x => untold64 w m hs up up' p' x
    | _ => False
    end.
Proof.
  intros st c u u2 nm w w2 m lin hs up q hs' p' up' pay' s4 h4 d4 hd V W C Lu HU Wo I' F L PK ER IN W1 W2 P1 DO NP AT D6 S6 R6 EQ Us Ud Rs Rd Ns Nd Ps Pd.
  destruct (C39_accepts m lin hs 58 up q F L PK) as (mt & l & G & <- & <-). set (up := l4off mt) in *. set (q := payoff mt) in *.
  assert (L40 : (40 <= length m)%nat) by (destruct PK as (X & _); pose proof (word_u16 m 4 F) as Y; unfold is_u16 in Y; lia).
  pose proof (parse_view true m lin mt l hs 58 F L G PK) as V6'. pose proof (v_lin _ _ _ _ _ _ V6') as [_ LL].
  assert (INN : hdr_iterator_last l m q = Ok (p', up') /\ (q + 40 <= l)%nat /\ inner_error is_icmp6_error l m p' up' = Ok false).
  { destruct (v_inner _ _ _ _ _ _ V6' eq_refl ER) as (hs2 & p2 & up2 & pay2 & IN2 & PL & LAST). fold q in IN2, LAST.
    pose proof IN as (_ & _ & C1 & _). pose proof IN2 as (_ & _ & C2 & _). destruct (chain_det _ _ _ _ _ _ C1 _ _ _ C2) as (-> & -> & ->).
    split; [exact LAST|]. exact (inner_error6 m l q _ _ _ _ IN2 PL LL P1 DO). }
  destruct INN as (LAST & Q40 & IE).
  pose proof (rep_stands st c S6 s4 h4 V W C Us Rs) as Ss. pose proof (rep_stands st c D6 d4 hd V W C Ud Rd) as Sd. pose proof (rep_u128 _ _ _ _ Rs) as U1. pose proof (rep_u128 _ _ _ _ Rd) as U2.
  assert (F1 : forall chk, addrxlat_siit64 st S6 chk = Ok (Siit_Model.XContinue s4 (meth h4))) by (intros chk; apply (x64 st c); auto).
  assert (G1 : forall chk, addrxlat_siit64 st D6 chk = Ok (Siit_Model.XContinue d4 (meth hd))) by (intros chk; apply (x64 st c); auto).
  assert (E6 : error6 m mt = true) by (apply (o_error m lin l mt hs 58 V6'); split; [reflexivity|exact ER]).
  assert (Ur : is_u128 R6) by (apply field_u128; [exact F|lia]).
  unfold siit6. rewrite G. unfold addresses64. rewrite E6, leg6_zero. rewrite EQ. fold R6.
  assert (OUT : exists o, translate_addrs64_siit st u false (Leg R6 D6 true (oct m 7)) false = Ok o /\
     match o with Siit_Model.Continue (r4, x, h) => x = d4 /\ h = false /\ is_u32 r4 /\ teller4 c u R6 r4
       | Siit_Model.Untranslatable _ => R6 = loopback6 | Siit_Model.Drop _ => False end).
  { unfold translate_addrs64_siit. cbn [l_src l_dst l_err l_hop negb]. rewrite G1. cbn [bind].
    assert (MK : forall s ms, mark_hairpin64 st false (Leg R6 D6 true (oct m 7)) s ms d4 (meth hd) false = Ok false) by (intros s ms; unfold mark_hairpin64; cbn [negb andb l_err]; destruct (s_mode st =? EHM_INTRINSIC); reflexivity).
    destruct (one64 st c R6 false V W Ur) as (vs & -> & X). cbn [bind]. destruct vs as [r4 ms| | |]; [| | |destruct X].
    - destruct X as (_ & U4 & h & _ & S & _). rewrite MK. cbn [bind]. eexists. split; [reflexivity|]. split; [reflexivity|]. split; [reflexivity|]. split; [exact U4|]. left. eauto.
    - rewrite MK. cbn [bind]. eexists. split; [reflexivity|]. split; [reflexivity|]. split; [reflexivity|].
      assert (K : is_u32 (rfc6791v4_find st u (oct m 7)) /\ mask4 c (rfc6791v4_find st u (oct m 7))).
      { destruct (C68_6to4_partial st c u false (Leg R6 D6 true (oct m 7)) false V W) as (o & Eo & A & _); [split; [exact Ur|split; [exact U2|apply oct_u8; exact F]]|exact Lu|].
        unfold translate_addrs64_siit in Eo. cbn [l_src l_dst l_err l_hop negb] in Eo. rewrite G1 in Eo. cbn [bind] in Eo.
        destruct (one64 st c R6 false V W Ur) as (vs & Ev & Y). rewrite Ev in Eo. cbn [bind] in Eo. destruct vs as [r4 ms| | |].
        - exfalso. destruct Y as (_ & _ & h & _ & S & _). destruct X as [_ X]. exact (X _ _ S).
        - rewrite MK in Eo. cbn [bind] in Eo. injection Eo as <-. destruct (A _ _ _ eq_refl) as [_ B]. cbn [l_err l_src] in B. destruct B as [_ [(h & S)|[_ B]]]; [destruct X as [_ X]; elim (X _ _ S)|].
          split; [|exact B]. unfold mask4 in B. destruct (t_6791v4 c); [apply B|rewrite B; unfold is_u32; lia].
        - exfalso. destruct Y as [Y|[Y _]]; [exact (proj1 X Y)|discriminate].
        - destruct Y. }
      split; [apply K|right; left; apply K].
    - eexists. split; [reflexivity|]. destruct X as [X|[X _]]; [exact X|discriminate]. }
  destruct OUT as (o & -> & X). cbn [bind]. destruct o as [[[r4 x] h]|s|s]; [|(eexists; split; [reflexivity|]; right; exact X)|destruct X].
  destruct X as (-> & -> & U4 & TL).
  assert (HI : match has_inner64 l m mt with XOk b => b = true | XDrop _ => forall t c, ~ becomes rules64 (oct m up) (oct m (up + 1)) t c | _ => False end).
  { unfold has_inner64. rewrite (o_proto m lin l mt hs 58 V6'). cbn [xbind]. change (proto64 58 =? 1) with true. cbv iota. change byte with oct. fold up.
    pose proof PK as (_ & _ & TE & _ & _ & W3). assert (FP : first_piece m hs) by (unfold first_piece; rewrite W1; exact Logic.I). destruct (TE FP) as (_ & T2 & _). pose proof (v_pay _ _ _ _ _ _ V6') as Vp. fold q in Vp. rewrite T2 in Vp by auto.
    rewrite direct_ok by lia. cbn [of_res xbind]. rewrite type64_applied by (apply oct_u8; exact F).
    destruct (applied rules64 (oct m up) (oct m (up + 1))) as [[t c0]|] eqn:AP; cbn [xbind].
    - unfold icmp6_error_type in ER. cbn [In] in ER. lia.
    - apply applied_none; [exact disjoint64|exact AP]. }
  destruct (has_inner64 l m mt) as [b|j|j rr i|]; [|cbn [failed]|destruct HI|destruct HI].
  2: { eexists. split; [reflexivity|]. left. exact HI. }
  subst b. fold q. rewrite LAST. cbn [bind fst snd]. rewrite IE. cbn [bind]. rewrite direct_ok by lia. cbn [bind].
  change (leg6_at m q false) with (Leg D6 S6 false (oct m (q + 7))).
  assert (IT : translate_addrs64_siit st u true (Leg D6 S6 false (oct m (q + 7))) false = Ok (Siit_Model.Continue (d4, s4, false))).
  { eapply t64; [apply F1|apply G1|]. unfold mark_hairpin64. cbn [negb andb l_err]. destruct (s_mode st =? EHM_INTRINSIC); [|reflexivity].
    destruct hd as [p|e]; cbn [meth is_6052]; [|reflexivity]. destruct (contains4 st c d4 V Ud) as (b & -> & B). cbn [bind]. destruct b; [|reflexivity].
    exfalso. destruct (proj1 B eq_refl) as (e & He & I). inversion Rd as [|p0 N]; subst. exact (N e He I). }
  rewrite IT. cbn [bind]. unfold predict_route64. cbn [a_src negb andb a_dst a_inner].
  destruct (u_route u) eqn:R; cbn [negb]. 2: { eexists. split; [reflexivity|]. left. reflexivity. }
  assert (FIN : forall s, is_u32 s -> teller4 c u R6 s ->
    exists r, match Xlat_Model.xlat64 (senv64 w (Addrs s d4 (Some (d4, s4))) false) l m mt with XUB => UB | XOk out => Ok (SPacket4 out) | x => Ok (SFailed (failed x)) end = Ok r /\
    match r with
    | SPacket4 o => exists r4, teller4 c u R6 r4 /\ told4 w m hs up q hs' p' up' r4 d4 d4 s4 o
    | SRefused drop _ => if drop then u_host u = None /\ teller4 c u R6 0 else true = false \/ R6 = loopback6
    | SFailed x => untold64 w m hs up up' p' x
    | _ => False
    end).
  { intros s Us4 Ts.
    pose proof (C77_64_partial (senv64 w (Addrs s d4 (Some (d4, s4))) false) true m lin mt l hs hs' p' up' pay' F L G PK (senv64_ok w (Addrs s d4 (Some (d4, s4))) false Wo Us4 Ud) (conj I' (conj Ud Us)) ER IN W1 W2 P1 DO ltac:(intros _ a b Y; discriminate Y) NP AT) as X.
    cbv zeta in X. fold up q in X.
    destruct (Xlat_Model.xlat64 (senv64 w (Addrs s d4 (Some (d4, s4))) false) l m mt) as [o|j|j rr i|]; [| | |destruct X]; (eexists; split; [reflexivity|]); cbn [failed untold64]; [|exact X|exact X].
    exists s. split; [exact Ts|]. exact X. }
  destruct (r4 =? 0) eqn:Z6.
  - apply Z.eqb_eq in Z6. subst r4. destruct (u_host u) as [h|] eqn:EH.
    + apply FIN; [apply HU; reflexivity|right; right; exact EH].
    + eexists. split; [reflexivity|]. split; [reflexivity|exact TL].
  - apply FIN; [exact U4|exact TL].
Qed.
Print Assumptions C91_error6_partial.
