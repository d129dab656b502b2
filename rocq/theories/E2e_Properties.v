(** * C86: the stateful translator, from octets to octets *)
Require Import Verif.Base Verif.Addr_Model Verif.Addr_Spec Verif.Addr_Properties Verif.Rtrie_Model Verif.Pool4_Model Verif.Fsm_Model Verif.Bib_Model
  Verif.Bib_Find Verif.Bib_Hist Verif.Bib_Spec Verif.Nat64_Model Verif.Nat64_Spec Verif.Nat64_Properties Verif.Nat64_Errors Verif.Nat64_Safe.
Require Import Verif.Csum_Model Verif.Csum_Spec Verif.Csum_Proofs Verif.Csum_Properties Verif.Pkt_Model Verif.Pkt_Spec Verif.Pkt_Proofs Verif.Pkt_Properties
  Verif.Hdr_Model Verif.Hdr_Spec Verif.Hdr_Proofs Verif.Hdr_Properties Verif.Ext_Model Verif.Xlat_Model Verif.Xlat_Spec Verif.Xlat_Proofs Verif.Xlat_Proofs46
  Verif.Xlat_Properties Verif.Trip_Spec Verif.Trip_Proofs Verif.E2e_Model Verif.E2e_Spec Verif.E2e_Proofs Verif.E2e_Out Verif.E2e_Back Verif.E2e_Hairpin.
Local Ltac Zify.zify_post_hook ::= idtac.

Print Assumptions C86_there_partial.
Print Assumptions C86_back_partial.
Print Assumptions C86_hairpin_partial.

(** What is answered to the packet which was sent, while the session exists, is
    delivered to the node the first packet was from, as coming from whom it was to. *)
Theorem C86_answers_partial : forall g better n n2 nm w w2 s mem m lin hs p up pay pr S6 D6 o s1 evs,
  reachable_db s -> typed_db s -> usable4 g n -> pool6_ok g -> world64 w -> Forall is_u8 m -> (lin <= length m)%nat ->
  packet6 m hs p up pay -> first_piece m hs -> talk6 m p up pr S6 D6 ->
  (p = 6 -> 5 <= oct m (up + 12) / 16) -> (20 + (length m - up) <= Z.to_nat 65535)%nat ->
  (pr = TCP -> syn_set m up /\ forall q, In q (queue (d_tcp s)) -> q_dst6 q <> D6) ->
  core6 g better n n2 nm w w2 s mem m lin = Ok (Packet4 o, s1, evs) -> canonical g (fst D6) ->
  exists S4 D4, talk4 o 20 pr S4 D4 /\ (exists x, has_session (get_table s1 pr) S6 S4 x D4) /\
  forall better' n' w' s' m' lin' up' pay',
    reachable_db s' -> typed_db s' -> world46 w' up' -> Forall is_u8 m' -> (lin' <= length m')%nat ->
    packet4 m' (oct m' 9) up' pay' -> fr4_offset m' 0 = 0 -> talk4 m' up' pr D4 S4 ->
    (oct m' 9 = 6 -> 5 <= oct m' (up' + 12) / 16) -> (20 <= up')%nat -> options m' up' 20 -> Z.of_nat (length m' - up') <= 65515 ->
    (exists x, has_session (get_table s' pr) S6 S4 x D4) -> (pr = TCP -> open_session (d_tcp s') S6 S4 D4) ->
    pool4db_contains (g_pool4 g) (n_ifas n') pr (fst S4) (snd S4) = Ok true -> ~ In false (n_al n') ->
    exists r s'' evs', core4 g better' n' w' s' true m' lin' = Ok (r, s'', evs') /\
      match r with
      | Packets6 outs => exists seg', sent6 (tos_of (y_reset w') 0 (oct m' 1)) (oct m' 8 - 1) (fst D6) (fst S6) (proto46 (oct m' 9)) (word m' 4) (fr4_more m' 0) 0 seg' outs
           /\ ends 58 [128; 129] seg' (proto46 (oct m' 9)) 0 pr (snd D6) (snd S6)
           /\ segment46 (y_sum w' = CS_PARTIAL) (Some (snd D6, snd S6)) (fst D4) (fst S4) (fst D6) (fst S6) (oct m' 9) (skipn up' m') seg'
      | Untranslated x => (exists i, In x [XIcmp J46_TTL E_TTL i; XIcmp J46_SRC_ROUTE E_SRC_ROUTE i; XIcmp J_PKT_TOO_BIG E_FRAG_NEEDED i]) \/ (x = XDrop J46_BAD_MTU /\ Z.min (y_mtu w') (y_lim w') < 1280)
      | _ => False
      end.
Proof.
  intros g better n n2 nm w w2 s mem m lin hs p up pay pr S6 D6 o s1 evs R Ty Us P6 W F L PK FP TK DO LEN Ht H Ca.
  destruct (C86_there_partial g better n n2 nm w w2 s mem m lin hs p up pay pr S6 D6 o s1 evs R Ty Us P6 W F L PK FP TK DO LEN Ht H) as (S4 & D4 & T4 & Hs & E1 & E2 & _).
  exists S4, D4. split; [exact T4|]. split; [exact Hs|].
  intros better' n' w' s' m' lin' up' pay' R' Ty' W' F' L' PK' FO' TK' DO' U' Op' LEN' Hs' Ho' Hp' Al'.
  destruct (C86_back_partial g better' n' w' s' m' lin' up' pay' pr S6 S4 D4 R' Ty' P6 W' F' L' PK' FO' TK' DO' U' Op' LEN' Hs' Ho' Hp' Al') as (a6 & r & s'' & evs' & G1 & G2 & G3).
  exists r, s'', evs'. split; [exact G2|]. clear G2. destruct (canonical_back _ _ P6 Ca) as (a4 & _ & F1 & F2). assert (a4 = fst D4) by congruence. subst a4. assert (a6 = fst D6) by congruence. subst a6. clear F1 F2 G1.
  assert (Ep : match pr with ICMP => snd S6 | _ => snd D4 end = snd D6).
  { destruct TK as (_ & _ & TE). destruct (ends_pr 58 _ _ _ _ _ _ _ ltac:(discriminate) TE) as (_ & _ & X). destruct pr; try exact E2. exact (X eq_refl). }
  cbv zeta in G3. rewrite Ep in G3. cbn [fst snd] in G3. destruct r as [|outs| | | |x]; try exact G3.
  - destruct G3 as (_ & _ & _ & _ & _ & seg' & A & B & C & _). exists seg'. auto.
  - destruct G3 as [(-> & _)|[(-> & _)|[(i & -> & _)|G3]]]; [left; exists 0; cbn; auto|left; exists 0; cbn; auto|left; exists i; cbn; auto|right; exact G3].
Qed.
Print Assumptions C86_answers_partial.

(** ** Nothing undefined *)
(** The first pieces of TCP segments, UDP datagrams and echo messages. True of TCP
    but for C60's case. *)
Theorem C86_defined6_partial : forall g better n n2 nm w w2 s mem m lin hs p up pay pr S6 D6,
  reachable_db s -> sound g n -> sound g n2 -> world64 w -> world46 w2 20 -> Forall is_u8 m -> (lin <= length m)%nat ->
  packet6 m hs p up pay -> first_piece m hs -> talk6 m p up pr S6 D6 ->
  (p = 6 -> 5 <= oct m (up + 12) / 16) -> (20 + (length m - up) <= Z.to_nat 65535)%nat ->
  (exists r s' evs, core6 g better n n2 nm w w2 s mem m lin = Ok (r, s', evs) /\ reachable_db s') \/
  (core6 g better n n2 nm w w2 s mem m lin = UB /\ pr = TCP /\ trouble s (n_al n) D6).
Proof.
  intros g better n n2 nm w w2 s mem m lin hs p up pay pr S6 D6 R So So2 W W2 F L PK FP TK DO LEN. unfold core6.
  destruct (pkt_init_ipv6 mem m lin) as [[mt l]|b|] eqn:G; [|left; eexists _, _, _; split; [reflexivity|exact R]|elim (C39_terminates mem m lin F L G)].
  assert (U : packet6 m hs p (l4off mt) (payoff mt) /\ l4off mt = up).
  { destruct (C39_parses mem m lin mt l F L G) as (hs' & p' & PK' & _). pose proof PK as (_ & C & _). pose proof PK' as (_ & C' & _). destruct (chain_det _ _ _ _ _ _ C _ _ _ C') as (-> & -> & E). auto. }
  destruct U as [PK' <-]. clear PK pay. pose proof TK as (TS & TD & TE). destruct (ends_pr 58 _ _ _ _ _ _ _ ltac:(discriminate) TE) as (No & Np & Nid).
  destruct (fields6 mem m lin mt l hs p pr S6 D6 F L G PK' FP DO TK) as (k & -> & Hf & Fl & _). cbn [bind]. rewrite (flow_view _ _ _ _ Fl), Hf.
  match goal with |- context [steps23 g n s ?x] => set (v := x) end.
  destruct (steps_defined g n s v R So No (or_intror eq_refl)) as [(x & s1 & e1 & E1 & R1)|(E1 & _ & _ & Y3 & Y)]; rewrite E1; cbn [bind].
  2:{ right. auto. }
  destruct x as [f ot|x]; [|left; eexists _, _, _; split; [reflexivity|exact R1]].
  assert (P1 : p <> 1) by (destruct TE as [(-> & _)|[(-> & _)|(-> & _)]]; discriminate).
  assert (TY : p = 58 -> oct m (l4off mt) = 128 \/ oct m (l4off mt) = 129).
  { intros E. destruct TE as [(X & _)|[(X & _)|(_ & T & _)]]; [congruence|congruence|]. destruct T as [<-|[<-|[]]]; auto. }
  assert (NE : p = 58 -> ~ icmp6_error_type (oct m (l4off mt))) by (intros E; unfold icmp6_error_type; destruct (TY E) as [-> | ->]; cbn; lia).
  pose proof (C74_partial (env64_of w ot) mem m lin mt l hs p F L G PK' (env64_of_ok w ot W) P1 NE ltac:(tauto) LEN) as X. cbv zeta in X.
  destruct (xlat64 (env64_of w ot) l m mt) as [o|j|j q i|] eqn:Ex; [|left; eexists _, _, _; split; [reflexivity|exact R1]|left; eexists _, _, _; split; [reflexivity|exact R1]|destruct X].
  destruct X as (X1 & X2 & X3 & X4 & _ & (big & _ & X6) & X7 & _). specialize (X7 FP). rewrite skipn_length in X3.
  assert (XO : off64 m hs = 0) by (unfold off64; unfold first_piece in FP; destruct (where_is 44 hs); [exact FP|reflexivity]). rewrite XO in X6.
  assert (Hp : exists b, is_hairpin g n v ot = Ok b) by (unfold is_hairpin; apply So). destruct Hp as (b & Eb). rewrite Eb. cbn [bind].
  destruct b; [|left; eexists _, _, _; split; [reflexivity|exact R1]]. destruct nm; [|left; eexists _, _, _; split; [reflexivity|exact R1]].
  destruct (steps_defined g n2 s1 (hairpin_view v ot) R1 So2 No (or_intror eq_refl)) as [(x2 & s2 & e2 & E2 & R2)|(_ & _ & Y & _)]; [|discriminate]. rewrite E2. cbn [bind].
  destruct x2 as [f2 o2|x]; [|left; eexists _, _, _; split; [reflexivity|exact R2]].
  pose proof (view_out mem m lin mt l hs p pr (snd S6) (snd D6) _ _ _ _ _ _ o _ _ _ _ F L G PK' FP TE X3 X4 X6 X7) as V. cbv zeta in V.
  assert (P2 : proto64 p <> 58 /\ (proto64 p = 6 -> p = 6)) by (clear - TE; destruct TE as [(-> & _)|[(-> & _)|(-> & _)]]; split; auto; discriminate).
  assert (EC : proto64 p = 1 -> oct o 20 = 8 \/ oct o 20 = 0).
  { intros E. assert (E58 : p = 58) by (destruct TE as [(-> & _)|[(-> & _)|(-> & _)]]; [discriminate E|discriminate E|reflexivity]). destruct X7 as (_ & _ & X7 & _). destruct (X7 E58) as (B & _). rewrite !oct_skipn, !Nat.add_0_r in B.
    destruct (echo64_types _ _ _ _ B (TY E58)) as (B1 & B2 & _). destruct (TY E58) as [Y|Y]; auto. }
  assert (NE2 : proto64 p = 1 -> ~ icmp4_error_type (oct o 20)) by (intros E; unfold icmp4_error_type; destruct (EC E) as [-> | ->]; cbn; lia).
  unfold step4_46. destruct (generate_saddr6_nat64 _ _ _ _ _) as [a|]; [|left; eexists _, _, _; split; [reflexivity|exact R2]].
  set (e := env46_of w2 true (sum_out m mt (x_sum w)) a o2) in *.
  pose proof X6 as (_ & _ & _ & Y4 & _ & _ & Y5 & Y6 & Y7 & Y8 & Y9 & Y10 & _). cbn [Nat.add] in Y4, Y7, Y8, Y9, Y10.
  assert (D20 : proto64 p = 6 -> fr4_offset o 0 = 0 -> 5 <= oct o (20 + 12) / 16).
  { intros E _. pose proof (proj2 P2 E) as E6. destruct X7 as (X7 & _). destruct (X7 E6) as ((Xl & X & _) & _).
    destruct (o_l4 m lin l mt hs p (parse_view mem m lin mt l hs p F L G PK') FP DO) as [L6 _]. specialize (L6 E6). pose proof (o_pay m lin l mt hs p F (parse_view mem m lin mt l hs p F L G PK')) as [[? ?] ?].
    rewrite skipn_length in X. specialize (X 12%nat ltac:(lia) ltac:(lia) ltac:(lia)). change (nth 12 (skipn 20 o) 0) with (oct (skipn 20 o) 12) in X. change (nth 12 (skipn (l4off mt) m) 0) with (oct (skipn (l4off mt) m) 12) in X.
    rewrite !oct_skipn in X. rewrite X. exact (DO E6). }
  pose proof (C75_view e o _ _ (meta_out mt) (proto64 p) X4 V (env46_of_ok _ _ _ _ _ _ W2) (proj1 P2) NE2 D20 ltac:(cbn; lia) (o_none _ _) Y6) as Z0. cbn [meta_out l4off] in Z0.
  rewrite skipn_length in Z0. specialize (Z0 ltac:(lia) (ex_intro _ _ (ex_intro _ _ eq_refl)) EC). change (Meta 0 (l4p mt) 20 (20 + (payoff mt - l4off mt))) with (meta_out mt) in Z0.
  destruct (xlat46 e _ o (meta_out mt)) as [outs|j|j q i|]; [| | |destruct Z0]; (left; eexists _, _, _; split; [reflexivity|exact R2]).
Qed.

Lemma init4_fuel mem m lin : pkt_init_ipv4 mem m lin <> BadFuel.
Proof.
  unfold pkt_init_ipv4. destruct (may_pull _ _ _ _) as [l|]; [|discriminate]. destruct (summarize_skb4 mem m l) as [r| |] eqn:E; cbn [pbind]; [destruct (may_pull _ _ _ _); discriminate|discriminate|]. exfalso. revert E.
  unfold summarize_skb4, handle_icmp4, validate_inner4, pbind. repeat match goal with |- context [if ?b then _ else _] => destruct b end; try discriminate; destruct (may_pull _ _ _ _); discriminate.
Qed.
Theorem C86_defined4_partial : forall g better n w s mem m lin up pay pr S4 D4,
  reachable_db s -> sound g n -> world46 w up -> Forall is_u8 m -> (lin <= length m)%nat ->
  packet4 m (oct m 9) up pay -> fr4_offset m 0 = 0 -> talk4 m up pr S4 D4 ->
  (oct m 9 = 6 -> 5 <= oct m (up + 12) / 16) -> (20 <= up)%nat -> options m up 20 -> Z.of_nat (length m - up) <= 65515 ->
  exists r s' evs, core4 g better n w s mem m lin = Ok (r, s', evs) /\ reachable_db s'.
Proof.
  intros g better n w s mem m lin up pay pr S4 D4 R So W F L PK FO TK DO U Op LEN. unfold core4.
  destruct (pkt_init_ipv4 mem m lin) as [[mt l]|b|] eqn:G; [|eexists _, _, _; split; [reflexivity|exact R]|elim (init4_fuel mem m lin G)].
  destruct (C62_parses mem m lin mt l L G) as (PK' & _). assert (l4off mt = up) as <- by (destruct PK as (_ & _ & -> & _), PK' as (_ & _ & -> & _); reflexivity).
  pose proof TK as (TS & TD & TE). destruct (ends_pr 1 _ _ _ _ _ _ _ ltac:(discriminate) TE) as (No & Np & Nid).
  destruct (fields4 mem m lin mt l pr S4 D4 F L G FO DO TK) as (k & -> & Hf & Fl & _). cbn [bind]. rewrite (flow_view _ _ _ _ Fl), Hf.
  match goal with |- context [steps23 g n s ?x] => set (v := x) end.
  destruct (steps_defined g n s v R So No (or_intror eq_refl)) as [(x & s1 & e1 & E1 & R1)|(_ & _ & Y & _)]; [|discriminate]. rewrite E1; cbn [bind].
  destruct x as [f ot|x]; [|eexists _, _, _; split; [reflexivity|exact R1]].
  unfold step4_46. destruct (generate_saddr6_nat64 _ _ _ _ _) as [a|]; [|eexists _, _, _; split; [reflexivity|exact R1]].
  assert (TY : oct m 9 = 1 -> oct m (l4off mt) = 8 \/ oct m (l4off mt) = 0).
  { intros E. destruct TE as [(X & _)|[(X & _)|(_ & T & _)]]; [congruence|congruence|]. destruct T as [<-|[<-|[]]]; auto. }
  pose proof (C75_view (env46_of w false (y_sum w) a ot) m lin l mt (oct m 9) F (parse_view4 mem m lin mt l L G) (env46_of_ok _ _ _ _ _ _ W)
    ltac:(destruct TE as [(-> & _)|[(-> & _)|(-> & _)]]; discriminate) ltac:(intros E; unfold icmp4_error_type; destruct (TY E) as [-> | ->]; cbn; lia) ltac:(auto) U Op FO) as Z0.
  rewrite skipn_length in Z0. specialize (Z0 LEN (ex_intro _ _ (ex_intro _ _ eq_refl)) TY).
  destruct (xlat46 (env46_of w false (y_sum w) a ot) l m mt) as [outs|j|j q i|]; [| | |destruct Z0]; (eexists _, _, _; split; [reflexivity|exact R1]).
Qed.
Print Assumptions C86_defined6_partial.
Print Assumptions C86_defined4_partial.
