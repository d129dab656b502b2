(** C86, the way out: an IPv6 packet becomes the IPv4 one and leaves a session. *)
Require Import Verif.Base Verif.Addr_Model Verif.Addr_Spec Verif.Addr_Properties Verif.Rtrie_Model Verif.Pool4_Model Verif.Fsm_Model Verif.Bib_Model
  Verif.Bib_Find Verif.Bib_Hist Verif.Bib_Spec Verif.Nat64_Model Verif.Nat64_Spec Verif.Nat64_Properties Verif.Nat64_Errors.
Require Import Verif.Csum_Model Verif.Csum_Spec Verif.Csum_Proofs Verif.Csum_Properties Verif.Pkt_Model Verif.Pkt_Spec Verif.Pkt_Proofs Verif.Pkt_Properties
  Verif.Hdr_Model Verif.Hdr_Spec Verif.Hdr_Proofs Verif.Hdr_Properties Verif.Ext_Model Verif.Xlat_Model Verif.Xlat_Spec Verif.Xlat_Proofs Verif.Xlat_Proofs46
  Verif.Xlat_Properties Verif.Trip_Spec Verif.Trip_Proofs Verif.E2e_Model Verif.E2e_Spec Verif.E2e_Proofs.
Local Ltac Zify.zify_post_hook ::= idtac.

(** What the configuration and the kernel decide is of the C types. *)
Definition world64 (w : env64) : Prop :=
  is_u8 (new_tos (x_tos w)) /\ is_u16 (x_id w) /\ forall mtu, x_mtu w = Some mtu -> 0 <= mtu < 4294967276.
Lemma env64_of_ok w o : world64 w -> env64_ok (env64_of w o).
Proof. intros (A & B & C). unfold env64_ok, env64_of. cbn. repeat split; try assumption; try apply u16_u; try apply u32_u; try (apply A); try (apply B); apply (C _ H). Qed.

Lemma core6_there : forall g better n n2 nm w w2 s mem m lin o s1 evs, core6 g better n n2 nm w w2 s mem m lin = Ok (Packet4 o, s1, evs) ->
  exists mt l k v f ot, pkt_init_ipv6 mem m lin = Good (mt, l) /\ fields_at V6 l m mt = Ok k /\ determine_in_tuple k = (Continue, Some v)
    /\ steps23 g n s v = Ok (Sent f ot, s1, evs) /\ xlat64 (env64_of w ot) l m mt = XOk o /\ is_hairpin g n v ot = Ok false.
Proof.
  intros g better n n2 nm w w2 s mem m lin o s1 evs H. unfold core6 in H. destruct (pkt_init_ipv6 mem m lin) as [[mt l]|b|]; [|discriminate|discriminate].
  unbind H k Ek. destruct (determine_in_tuple k) as [x [v|]] eqn:Ev; [|destruct x; discriminate]. destruct x; try discriminate.
  unbind H r Er. destruct r as [[r s2] evs2]. destruct r as [f ot|y]; [|discriminate]. destruct (xlat64 (env64_of w ot) l m mt) as [out|j|j y i|] eqn:Ex; try discriminate.
  unbind H h Eh. destruct h.
  - exfalso. destruct nm; [|discriminate]. unbind H r Er2. destruct r as [[r s3] evs3]. destruct r as [f2 o2|y]; [|discriminate].
    destruct (step4_46 _ _ _ _ _ _ _ _ _) as [[| | |]|]; discriminate.
  - injection H as <- <- <-. exists mt, l, k, v, f, ot. auto 10.
Qed.

Lemma ends_pr icmp echo m p up pr a b : icmp <> 6 -> ends icmp echo m p up pr a b -> pr <> OTHER /\ (pr = TCP <-> p = 6) /\ (pr = ICMP -> a = b).
Proof. intros N [(-> & -> & _)|[(-> & -> & _)|(-> & _ & -> & -> & ->)]]; (split; [discriminate|]); (split; [|try discriminate; auto]); split; congruence || discriminate || auto. Qed.
Lemma ends_u16 icmp echo m p up pr a b : Forall is_u8 m -> ends icmp echo m p up pr a b -> is_u16 a /\ is_u16 b.
Proof. intros F [(_ & _ & -> & ->)|[(_ & _ & -> & ->)|(_ & _ & _ & -> & ->)]]; split; apply word_u16; exact F. Qed.

(** The ends of what is sent *)
Lemma ends_out m p up pr sp dp q P s d s6 d6 s4 d4 o : oct o 9 = proto64 p -> ends 58 [128; 129] m p up pr sp dp -> (pr = ICMP -> d = s) ->
  segment64 P (Some (s, d)) s6 d6 s4 d4 p (skipn up m) (skipn q o) -> ends 1 [8; 0] o (oct o 9) q pr s d.
Proof.
  intros PO E Hi (G6 & G17 & G58 & _). rewrite PO. destruct E as [(-> & -> & _)|[(-> & -> & _)|(-> & T & -> & _)]].
  - left. destruct (G6 eq_refl) as ((_ & _ & A & B) & _). change 1%nat with (0 + 1)%nat in A. rewrite <- word_nth, word_skipn in A. change 3%nat with (2 + 1)%nat in B. rewrite <- word_nth, word_skipn in B. rewrite Nat.add_0_r in A. auto.
  - right. left. destruct (G17 eq_refl) as ((_ & _ & A & B) & _). change 1%nat with (0 + 1)%nat in A. rewrite <- word_nth, word_skipn in A. change 3%nat with (2 + 1)%nat in B. rewrite <- word_nth, word_skipn in B. rewrite Nat.add_0_r in A. auto.
  - right. right. destruct (G58 eq_refl) as (A & (_ & B & _) & _). cbn [option_map fst] in B. rewrite word_skipn in B. rewrite !oct_skipn, !Nat.add_0_r in A.
    assert (X : oct m up = 128 \/ oct m up = 129) by (destruct T as [<-|[<-|[]]]; auto). destruct (echo64_types _ _ _ _ A X) as (A1 & A2 & _).
    split; [reflexivity|]. split; [destruct X as [X|X]; [rewrite (A1 X)|rewrite (A2 X)]; cbn; auto|]. split; [reflexivity|]. rewrite (Hi eq_refl). auto.
Qed.

Lemma there_steps : forall g better n n2 nm w w2 s mem m lin hs p up pay pr S6 D6 o s1 evs,
  reachable_db s -> typed_db s -> usable4 g n -> pool6_ok g -> world64 w -> Forall is_u8 m -> (lin <= length m)%nat ->
  packet6 m hs p up pay -> first_piece m hs -> talk6 m p up pr S6 D6 ->
  (p = 6 -> 5 <= oct m (up + 12) / 16) -> (20 + (length m - up) <= Z.to_nat 65535)%nat ->
  (pr = TCP -> syn_set m up /\ forall q, In q (queue (d_tcp s)) -> q_dst6 q <> D6) ->
  core6 g better n n2 nm w w2 s mem m lin = Ok (Packet4 o, s1, evs) ->
  exists v ot, (steps23 g n s v = Ok (Sent V4 ot, s1, evs) /\ v_fam v = V6 /\ v_err v = false /\ v_l4 v = v_pr v /\ v_pr v = pr /\ v_src v = S6 /\ v_dst v = D6 /\ (pr = TCP -> sg_syn (v_seg v) = true)) /\
  let S4 := o_src ot in let D4 := o_dst ot in
  talk4 o 20 pr S4 D4
    /\ (exists x, has_session (get_table s1 pr) S6 S4 x D4)
    /\ rfc6052_6to4 (g_pool6 g) (fst D6) = Some (fst D4) /\ snd D4 = match pr with ICMP => snd S4 | _ => snd D6 end
    /\ Forall is_u8 o /\ length o = (20 + (length m - up))%nat /\ 1 < oct m 7
    /\ (exists tos df, ipv4_header o 0 tos (Z.of_nat (length o)) (id64 m hs (x_id w)) df (more64 m hs) 0 (oct m 7 - 1) (proto64 p) (fst S4) (fst D4))
    /\ segment64 (x_sum w = CS_PARTIAL) (Some (snd S4, snd D4)) (fst S6) (fst D6) (fst S4) (fst D4) p (skipn up m) (skipn 20 o).
Proof.
  intros g better n n2 nm w w2 s mem m lin hs p up pay pr S6 D6 o s1 evs R Ty Us P6 W F L PK FP TK DO LEN Ht H.
  destruct (core6_there _ _ _ _ _ _ _ _ _ _ _ _ _ _ H) as (mt & l & k & v & f & ot & G & Ek & Ev & Es & Ex & Eh).
  assert (U : packet6 m hs p (l4off mt) (payoff mt) /\ l4off mt = up).
  { destruct (C39_parses mem m lin mt l F L G) as (hs' & p' & PK' & _). pose proof PK as (_ & C & _). pose proof PK' as (_ & C' & _). destruct (chain_det _ _ _ _ _ _ C _ _ _ C') as (-> & -> & E). auto. }
  destruct U as [PK' <-]. clear PK pay. destruct (fields6 mem m lin mt l hs p pr S6 D6 F L G PK' FP DO TK) as (k' & Ek' & Hf & Fl & Hsyn). assert (k' = k) by congruence. subst k'.
  assert (Hc : core_common g n n2 nm Continue Continue s k = Ok (Sent f ot, s1, evs)) by (unfold core_common; rewrite Ev, Es; cbn [bind]; rewrite Eh; reflexivity).
  pose proof (flow_view _ _ _ _ Fl) as Ev'. rewrite Ev, Hf in Ev'. injection Ev' as Ev'.
  assert (f = V4). { unfold steps23 in Es. unbind Es r E1. destruct r as [[[x en] s2] evs2]. destruct x; try discriminate. unbind Es y E2. destruct y as [[] [u|]]; try discriminate. rewrite Ev' in Es. injection Es as Es _ _ _. exact (eq_sym Es). }
  subst f.
  pose proof TK as (TS & TD & TE). destruct (ends_pr 58 _ _ _ _ _ _ _ ltac:(discriminate) TE) as (No & Np & Nid). destruct (ends_u16 _ _ _ _ _ _ _ _ F TE) as [U1 U2].
  assert (Ht' : pr = TCP -> is_syn k = true /\ forall q, In q (queue (d_tcp s)) -> q_dst6 q <> D6).
  { intros E. destruct (Ht E) as [A B]. split; [|exact B]. rewrite (Hsyn E). unfold bit, syn_set in *. apply Z.eqb_eq. exact A. }
  assert (Us' : usable g n) by (intros pr' d Ed; destruct (Us pr' d Ed) as (masks & O & _); eauto).
  destruct (C25_session_partial g n n2 nm Continue Continue s k pr S6 D6 ot s1 evs R Us' Hf Fl Ht' Hc) as (x & Hs).
  destruct (out_there _ _ _ _ _ _ _ _ _ _ _ _ _ _ Hf Fl Hc) as (a4 & E1 & E2 & E3).
  assert (T4 : typed4 (o_src ot)).
  { apply (session_typed g n s v pr ot s1 evs R Us Ty); [rewrite Ev'; reflexivity..| |exact Es]. intros E. destruct (Ht' E) as [A B]. rewrite Ev'. cbn [v_seg v_dst]. split; [|exact B].
    unfold is_syn in A. destruct (k_l4 k); try discriminate. exact A. }
  assert (UA : is_u32 a4) by (destruct P6 as (_ & fo & P); exact (proj1 (C02_6to4_extracts _ _ _ _ P E1))).
  assert (UD : is_u16 (snd (o_dst ot))) by (rewrite E2; cbn [snd]; destruct pr; [exact U2|exact U2|exact (proj2 T4)|exact U2]).
  assert (EE : x_src (env64_of w ot) = fst (o_src ot) /\ x_dst (env64_of w ot) = fst (o_dst ot) /\ x_ports (env64_of w ot) = Some (snd (o_src ot), snd (o_dst ot))).
  { unfold env64_of. cbn. rewrite (u32_typed _ (proj1 T4)), (u16_typed _ (proj2 T4)), (u16_typed _ UD), (u32_typed (fst (o_dst ot))) by (rewrite E2; exact UA). auto. }
  destruct EE as (EE1 & EE2 & EE3).
  assert (P1 : p <> 1) by (destruct TE as [(-> & _)|[(-> & _)|(-> & _)]]; discriminate).
  assert (NE : p = 58 -> ~ icmp6_error_type (oct m (l4off mt))).
  { intros E. destruct TE as [(X & _)|[(X & _)|(_ & T & _)]]; [lia|lia|]. unfold icmp6_error_type. destruct T as [<-|[<-|[]]]; cbn; lia. }
  pose proof (C74_partial (env64_of w ot) mem m lin mt l hs p F L G PK' (env64_of_ok w ot W) P1 NE (fun a _ => DO a) LEN) as X. cbv zeta in X. rewrite Ex in X.
  destruct X as (X1 & X2 & X3 & X4 & _ & (big & _ & X6) & X7 & _). specialize (X7 FP). rewrite EE1, EE2, EE3 in *.
  exists v, ot. split.
  { split; [exact Es|]. repeat (split; [rewrite Ev'; reflexivity|]). intros E. destruct (Ht' E) as [A _]. rewrite Ev'. cbn [v_seg]. unfold is_syn in A. destruct (k_l4 k); try discriminate. exact A. }
  cbv zeta.
  pose proof X6 as (_ & _ & _ & _ & _ & _ & _ & X8 & _ & X9 & X10 & X11 & _). cbn [Nat.add] in X9, X10, X11.
  assert (XO : off64 m hs = 0) by (unfold off64; unfold first_piece in FP; destruct (where_is 44 hs); [exact FP|reflexivity]). rewrite XO in X6.
  split. { split; [symmetry; exact X10|]. split; [symmetry; exact X11|].
    refine (ends_out _ _ _ _ _ _ _ _ _ _ _ _ _ _ _ X9 TE _ X7). intros ->. rewrite E2. reflexivity. }
  split; [eauto|]. split; [rewrite E2; exact E1|]. split; [rewrite E2 at 1; reflexivity|]. split; [exact X4|]. split; [rewrite X3, skipn_length; reflexivity|]. split; [exact X1|].
  split; [eexists _, _; exact X6|]. rewrite TS, TD. exact X7.
Qed.

(** True except of packets C74 leaves out, TCP packets other than SYNs (the session
    may end with them), and SYNs which are answers to stored ones (C18). *)
Theorem C86_there_partial : forall g better n n2 nm w w2 s mem m lin hs p up pay pr S6 D6 o s1 evs,
  reachable_db s -> typed_db s -> usable4 g n -> pool6_ok g -> world64 w -> Forall is_u8 m -> (lin <= length m)%nat ->
  packet6 m hs p up pay -> first_piece m hs -> talk6 m p up pr S6 D6 ->
  (p = 6 -> 5 <= oct m (up + 12) / 16) -> (20 + (length m - up) <= Z.to_nat 65535)%nat ->
  (pr = TCP -> syn_set m up /\ forall q, In q (queue (d_tcp s)) -> q_dst6 q <> D6) ->
  core6 g better n n2 nm w w2 s mem m lin = Ok (Packet4 o, s1, evs) ->
  exists S4 D4, talk4 o 20 pr S4 D4
    /\ (exists x, has_session (get_table s1 pr) S6 S4 x D4)
    /\ rfc6052_6to4 (g_pool6 g) (fst D6) = Some (fst D4) /\ snd D4 = match pr with ICMP => snd S4 | _ => snd D6 end
    /\ Forall is_u8 o /\ length o = (20 + (length m - up))%nat /\ 1 < oct m 7
    /\ (exists tos df, ipv4_header o 0 tos (Z.of_nat (length o)) (id64 m hs (x_id w)) df (more64 m hs) 0 (oct m 7 - 1) (proto64 p) (fst S4) (fst D4))
    /\ segment64 (x_sum w = CS_PARTIAL) (Some (snd S4, snd D4)) (fst S6) (fst D6) (fst S4) (fst D4) p (skipn up m) (skipn 20 o).
Proof.
  intros g better n n2 nm w w2 s mem m lin hs p up pay pr S6 D6 o s1 evs R Ty Us P6 W F L PK FP TK DO LEN Ht H.
  destruct (there_steps g better n n2 nm w w2 s mem m lin hs p up pay pr S6 D6 o s1 evs R Ty Us P6 W F L PK FP TK DO LEN Ht H) as (v & ot & _ & X). exists (o_src ot), (o_dst ot). exact X.
Qed.
Print Assumptions C86_there_partial.
