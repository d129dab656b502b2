(** * C87: ICMP errors through the stateful translator, from octets to octets *)
Require Import Verif.Base Verif.Addr_Model Verif.Addr_Spec Verif.Addr_Properties Verif.Rtrie_Model Verif.Pool4_Model Verif.Fsm_Model Verif.Bib_Model
  Verif.Bib_Find Verif.Bib_Hist Verif.Bib_Spec Verif.Bib_Properties Verif.Nat64_Model Verif.Nat64_Spec Verif.Nat64_Properties Verif.Nat64_Errors Verif.Nat64_Safe Verif.Nat64_Pool4.
Require Import Verif.Csum_Model Verif.Csum_Spec Verif.Csum_Proofs Verif.Csum_Properties Verif.Pkt_Model Verif.Pkt_Spec Verif.Pkt_Proofs Verif.Pkt_Properties
  Verif.Hdr_Model Verif.Hdr_Spec Verif.Hdr_Proofs Verif.Hdr_Properties Verif.Ext_Model Verif.Ext_Spec Verif.Xlat_Model Verif.Xlat_Spec Verif.Xlat_Proofs Verif.Xlat_Proofs46
  Verif.Xlat_Properties Verif.Icmperr_Spec Verif.Icmperr_Properties Verif.Trip_Spec Verif.Trip_Proofs Verif.E2e_Model Verif.E2e_Spec Verif.E2e_Proofs Verif.E2e_Out Verif.E2e_Back Verif.E2e_Hairpin
  Verif.E2e_Properties Verif.E2e_Cases Verif.E2e_Err4 Verif.E2e_Err6.
Local Ltac Zify.zify_post_hook ::= idtac.

Lemma quotes_about m q o pr S D : quotes m q o -> oct o 0 = 69 -> (28 <= length o)%nat -> (q + 28 <= length m)%nat -> talk4 o 20 pr S D -> about4 m q pr S D.
Proof.
  intros Q V L L' (A & B & E). assert (W : forall i, (12 <= i < 27)%nat -> word m (q + i) = word o i).
  { intros i Hi. unfold word. replace (q + i + 1)%nat with (q + (i + 1))%nat by lia. rewrite !Q by lia. reflexivity. }
  assert (Fd : forall i, (12 <= i <= 16)%nat -> field m (q + i) 4 = field o i 4).
  { intros i Hi. rewrite <- !be32_field by lia. unfold be32. rewrite !be16_word. replace (q + i + 2)%nat with (q + (i + 2))%nat by lia. rewrite !W by lia. reflexivity. }
  assert (H : ihl m q = 20%nat). { unfold ihl. pose proof (Q 0%nat ltac:(lia)) as X. rewrite Nat.add_0_r in X. rewrite X, V. reflexivity. }
  split; [rewrite Fd by lia; exact A|]. split; [rewrite Fd by lia; exact B|]. rewrite H, (Q 9%nat ltac:(lia)). unfold ends in *. rewrite (W 20%nat), (Q 20%nat) by lia.
  replace (q + 20 + 2)%nat with (q + 22)%nat by lia. replace (q + 20 + 4)%nat with (q + 24)%nat by lia. rewrite !W by lia. exact E.
Qed.

(** The error somebody on the IPv4 side sends about the packet that was sent comes to
    the node which had sent it, about the packet which it had sent. *)
Theorem C87_sent_partial : forall g better n n2 nm w w2 s mem m lin hs p up pay pr S6 D6 o s1 evs,
  reachable_db s -> typed_db s -> usable4 g n -> pool6_ok g -> world64 w -> Forall is_u8 m -> (lin <= length m)%nat ->
  packet6 m hs p up pay -> first_piece m hs -> talk6 m p up pr S6 D6 ->
  (p = 6 -> 5 <= oct m (up + 12) / 16) -> (20 + (length m - up) <= Z.to_nat 65535)%nat ->
  (pr = TCP -> syn_set m up /\ forall q, In q (queue (d_tcp s)) -> q_dst6 q <> D6) ->
  core6 g better n n2 nm w w2 s mem m lin = Ok (Packet4 o, s1, evs) -> canonical g (fst D6) ->
  exists S4 D4, talk4 o 20 pr S4 D4 /\ forall better' n' w' s' m' lin' up' q st,
    reachable_db s' -> typed_db s' -> world46 w' up' -> Forall is_u8 m' -> (lin' <= length m')%nat ->
    packet4 m' 1 up' q -> icmp4_error_type (oct m' up') -> quotes m' q o -> (q + 28 <= length m')%nat ->
    (p = 6 -> 5 <= oct m' (q + 32) / 16) -> (20 <= up')%nat -> options m' up' 20 -> Z.of_nat (length m') <= 65527 ->
    (96 <= length (y_head w') + (q + 20))%nat -> y_sum w' <> CS_PARTIAL -> (attr4 m' up' <> 0 -> 20 <= attr4 m' up') ->
    has (get_table s' pr) S6 S4 st -> pool4db_contains (g_pool4 g) (n_ifas n') pr (fst S4) (snd S4) = Ok true ->
    exists r6 r, rfc6052_4to6 (g_pool6 g) (field m' 12 4) = Some r6 /\ core4 g better' n' w' s' true m' lin' = Ok (r, s', []) /\
      let who := if better' then r6 else fst D6 in
      match r with
      | Packets6 outs => exists e, outs = [e] /\ ipv6_header e 0 (tos_of (y_reset w') 0 (oct m' 1)) (Z.of_nat (length e) - 40) 58 (oct m' 8 - 1) who (fst S6)
          /\ ok6 who (fst S6) 58 (skipn 40 e) /\ becomes rules46 (oct m' up') (oct m' (up' + 1)) (oct e 40) (oct e 41)
          /\ exists inn l3', inner_packet46 (Some (snd S6, snd D6)) (tos_of (y_reset w') 0 (oct m' (q + 1))) (fst S6) (fst D6) m' q l3' inn
             /\ ends 58 [128; 129] inn p l3' pr (snd S6) (snd D6) /\ carried46 m' up' 20 l3' inn e
      | Untranslated x => (exists i, In x [XIcmp J46_TTL E_TTL i; XIcmp J46_SRC_ROUTE E_SRC_ROUTE i]) \/ exists j, x = XDrop j
      | _ => False
      end.
Proof.
  intros g better n n2 nm w w2 s mem m lin hs p up pay pr S6 D6 o s1 evs R Ty Us P6 W F L PK FP TK DO LEN Ht H Ca.
  destruct (C86_there_partial g better n n2 nm w w2 s mem m lin hs p up pay pr S6 D6 o s1 evs R Ty Us P6 W F L PK FP TK DO LEN Ht H) as (S4 & D4 & T4 & _ & E1 & E2 & _ & Lo & _ & (tos & df & HD) & _).
  exists S4, D4. split; [exact T4|]. intros better' n' w' s' m' lin' up' q st R' Ty' W' F' L' PK' ER Qu Q28 DO' U' Op' LEN' HR NP AT Hh Hp.
  pose proof HD as (H0 & _ & _ & _ & _ & _ & _ & _ & _ & H9 & _). cbn [Nat.add] in H9.
  assert (LM : (28 <= length o)%nat).
  { destruct (le_lt_dec (up + 8) (length m)); [lia|]. exfalso. destruct PK as (_ & _ & T & _ & PM & _). destruct (T FP) as (T6 & T8 & _). destruct TK as (_ & _ & [(P & _)|[(P & _)|(P & _)]]); [destruct (T6 P); lia|specialize (T8 (or_introl P)); lia|specialize (T8 (or_intror P)); lia]. }
  pose proof (quotes_about _ _ _ _ _ _ Qu H0 LM Q28 T4) as AB. assert (IH : ihl m' q = 20%nat). { unfold ihl. pose proof (Qu 0%nat ltac:(lia)) as X. rewrite Nat.add_0_r in X. rewrite X, H0. reflexivity. }
  assert (P9 : oct m' (q + 9) = proto64 p) by (rewrite Qu by lia; exact H9).
  assert (PB : proto46 (proto64 p) = p /\ (proto64 p = 6 -> p = 6)) by (destruct TK as (_ & _ & [(-> & _)|[(-> & _)|(-> & _)]]); split; auto; discriminate).
  destruct (C87_error4_partial g better' n' w' s' m' lin' up' q pr S6 S4 D4 st R' Ty' P6 W' F' L' PK' ER AB) as (a6 & r6 & r & G1 & G2 & G3 & G4); try assumption.
  { rewrite IH, P9. replace (q + 20 + 12)%nat with (q + 32)%nat by lia. intros E. apply DO', PB, E. }
  { rewrite IH. exact HR. } { rewrite IH. exact AT. }
  destruct (canonical_back _ _ P6 Ca) as (a4 & _ & F1 & F2). assert (a4 = fst D4) by congruence. subst a4. assert (a6 = fst D6) by congruence. subst a6.
  assert (Ep : match pr with ICMP => snd S6 | _ => snd D4 end = snd D6).
  { destruct TK as (_ & _ & TE). destruct (ends_pr 58 _ _ _ _ _ _ _ ltac:(discriminate) TE) as (_ & _ & X). destruct pr; try exact E2. exact (X eq_refl). }
  exists r6, r. split; [exact G2|]. split; [exact G3|]. cbv zeta in *. rewrite Ep, IH, P9, (proj1 PB) in G4. cbn [fst snd] in G4. destruct r as [|outs| | | |x]; try exact G4.
  - destruct G4 as (e & X1 & _ & _ & _ & _ & _ & X2 & X3 & X4 & _ & inn & l3' & X5 & X6 & X7). exists e. split; [exact X1|]. split; [exact X2|]. split; [exact X3|]. split; [exact X4|]. exists inn, l3'. auto.
  - destruct G4 as [(-> & _)|[(-> & _)|(j & -> & _)]]; [left; exists 0; cbn; auto|left; exists 0; cbn; auto|right; exists j; reflexivity].
Qed.
Print Assumptions C87_sent_partial.

(** ** Cases: 203.0.113.9 says that the packet of C86's case was too long on the way;
    the node says that the answer came to a closed port. *)
Definition too_long : list Z := [69;0;0;61;0;3;0;0;60;1;128;178;203;0;113;9;192;0;2;1; 11;0;121;65;0;0;0;0] ++ sent_out.
Definition closed : list Z := [96;0;0;0;0;60;58;64] ++ ex_src6 ++ ex_dst6 ++ [1;4;157;119;0;0;0;0] ++ [96;0;0;0;0;12;17;63] ++ ex_dst6 ++ ex_src6 ++ [0;53;4;210;0;12;122;99; 111;107;33;33].
Lemma too_long_packet : packet4 too_long 1 20 28.
Proof.
  split; [vm_compute; lia|]. split; [reflexivity|]. split; [vm_compute; reflexivity|]. split; [intros _; split; [discriminate|]; split; [reflexivity|intros _ _ N; elim N; reflexivity]|].
  split; [intros N; elim N; vm_compute; reflexivity|]. split; [vm_compute; lia|]. intros _. split; [vm_compute; reflexivity|]. split; [vm_compute; discriminate|]. split; [vm_compute; lia|]. intros _. exists 56%nat.
  split; [vm_compute; lia|]. split; [vm_compute; reflexivity|]. split; [vm_compute; lia|]. split; [vm_compute; discriminate|]. split; [vm_compute; reflexivity|].
  split; [split; [discriminate|]; split; [reflexivity|intros _ N; elim N; reflexivity]|]. vm_compute. lia.
Qed.
Lemma case_mapping : exists st, has (get_table after UDP) A6 S4 st.
Proof. exists false, 1. eexists. vm_compute. repeat split. Qed.
Example C87_error4_case : packet4 too_long 1 20 28 /\ icmp4_error_type (oct too_long 20) /\ quotes too_long 28 sent_out /\ about4 too_long 28 UDP S4 D4 /\ Forall is_u8 too_long /\ attr4 too_long 20 = 0
  /\ (exists st, has (get_table after UDP) A6 S4 st) /\ y_sum ex_env46 <> CS_PARTIAL /\ options too_long 20 20
  /\ match core4 nat64 true (world 5) ex_env46 after true too_long 20 with Ok (r, _, _) => r
       = Packets6 [[96;0;0;0; 0;61;58;59] ++ [0;100;255;155; 0;0;0;0; 0;0;0;0; 203;0;113;9] ++ ex_src6 ++ [3;0;33;130; 0;0;0;0]
                   ++ [96;16;0;0; 0;13;17;63] ++ ex_src6 ++ ex_dst6 ++ [4;210;0;53;0;13;199;27] ++ [104;101;108;108;111]] | _ => False end.
Proof.
  split; [exact too_long_packet|]. split; [vm_compute; tauto|]. split; [intros i _; change too_long with (firstn 28 too_long ++ sent_out); unfold oct; rewrite app_nth2 by (cbn; lia); f_equal; cbn; lia|].
  split; [split; [vm_compute; reflexivity|]; split; [vm_compute; reflexivity|]; right; left; repeat split; vm_compute; reflexivity|]. split; [octets|]. split; [reflexivity|]. split; [exact case_mapping|]. split; [discriminate|]. split; [apply o_none|].
  vm_compute. reflexivity.
Qed.
Lemma closed_packet : packet6 closed [] 58 40 48 /\ inner6 closed 48 [] 17 88 96.
Proof.
  assert (I : inner6 closed 48 [] 17 88 96).
  { split; [vm_compute; lia|]. split; [vm_compute; reflexivity|]. split; [apply (c_upper _ 17 88); vm_compute; (lia || tauto || intuition discriminate)|]. split; [exact Logic.I|]. split; [split; [discriminate|]; split; [reflexivity|intros _ N; elim N; reflexivity]|]. split; [vm_compute; lia|discriminate]. }
  split; [|exact I]. split; [vm_compute; reflexivity|]. split; [apply (c_upper _ 58 40); vm_compute; (lia || tauto || intuition discriminate)|].
  split; [intros _; split; [discriminate|]; split; [reflexivity|intros _ _ N; elim N; reflexivity]|]. split; [intros N; elim N; exact Logic.I|]. split; [vm_compute; lia|]. intros _. split; [exact Logic.I|]. split; [vm_compute; lia|]. intros _. exists [], 17, 88%nat, 96%nat. exact I.
Qed.
Example C87_error6_case : packet6 closed [] 58 40 48 /\ inner6 closed 48 [] 17 88 96 /\ icmp6_error_type (oct closed 40) /\ about6 closed 48 17 88 UDP D6 A6 /\ Forall is_u8 closed /\ attr6 closed 40 = 0
  /\ rfc6052_6to4 (g_pool6 nat64) (fst D6) = Some (fst D4) /\ prefix6_contains (g_pool6 nat64) (field closed 8 16) = false /\ prefix6_contains (g_pool6 nat64) (field closed 24 16) = true
  /\ pool4db_contains (g_pool4 nat64) [] UDP (fst D4) (snd D6) = Ok false
  /\ match core6 nat64 true (world 5) (world 5) true ex_env64 ex_env46 after true closed 40 with Ok (r, _, _) => r
       = Packet4 ([69;0;0;60;0;7;0;0;63;1;247;151;192;0;2;1;192;0;2;33] ++ [3;3;129;61;0;0;0;0] ++ [69;0;0;32;0;8;0;0;63;17;247;162;192;0;2;33;192;0;2;1] ++ [0;53;19;138;0;12;215;103;111;107;33;33]) | _ => False end.
Proof.
  split; [apply closed_packet|]. split; [apply closed_packet|]. split; [vm_compute; tauto|].
  split; [split; [vm_compute; reflexivity|]; split; [vm_compute; reflexivity|]; right; left; repeat split; vm_compute; reflexivity|]. split; [octets|]. split; [reflexivity|]. split; [vm_compute; reflexivity|]. split; [vm_compute; reflexivity|]. split; [vm_compute; reflexivity|]. split; [vm_compute; reflexivity|].
  vm_compute. reflexivity.
Qed.
