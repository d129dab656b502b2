(** Lemmas about whole packets, IPv4 to IPv6. *)
Require Import Verif.Base Verif.Pool4_Model Verif.Rtrie_Model Verif.Nat64_Model Verif.Csum_Model Verif.Csum_Spec Verif.Csum_Proofs
  Verif.Csum_Properties Verif.Pkt_Model Verif.Pkt_Spec Verif.Pkt_Proofs Verif.Pkt_Properties
  Verif.Hdr_Model Verif.Hdr_Spec Verif.Hdr_Proofs Verif.Hdr_Properties Verif.Ext_Model Verif.Xlat_Model Verif.Xlat_Spec Verif.Xlat_Proofs.
Local Ltac Zify.zify_post_hook ::= Z.div_mod_to_equations.

(** ** Segments *)

Definition seg46_of (le : bool) (s : summed) (nat64 mf am : bool) (ports : option (Z * Z)) (s4 d4 s6 d6 p : Z) (first : list Z) (next : list (list Z))
    : option (list (list Z)) :=
  if p =? 6 then Some (ttp46_tcp le s ports s4 d4 s6 d6 first next)
  else if p =? 17 then ttp46_udp le s nat64 mf am ports s4 d4 s6 d6 first next
  else if p =? 1 then Some (put 0 (firstn 8 (echo46 le s6 d6 (option_map fst ports) (first ++ concat next))) first :: next)
  else Some (first :: next).

Lemma tcp46_form le s ports s4 d4 s6 d6 first next : Csum_Properties.pieces first next -> (20 <= length first)%nat ->
  exists d1, ttp46_tcp le s ports s4 d4 s6 d6 first next = d1 :: next /\ length d1 = length first /\ Forall is_u8 d1.
Proof.
  intros [[F _] _] L. apply Forall_app in F. destruct F as [F F2]. pose proof (new_ports_u8 ports first F) as FN.
  assert (LN : length (new_ports ports first) = length first) by (apply new_ports_length; lia).
  assert (Q : forall c, is_u16 c -> length (put 16 (st16 le c) (put 16 [0; 0] (new_ports ports first))) = length first
    /\ Forall is_u8 (put 16 (st16 le c) (put 16 [0; 0] (new_ports ports first)))).
  { intros c U. split; [rewrite put_length; rewrite ?put_length; rewrite ?st16_length; cbn [length]; lia|].
    apply put_u8; [apply st16_u8; exact U|apply put_u8; [apply u8_00|exact FN]]. }
  unfold ttp46_tcp. destruct (is_partial s).
  - destruct next as [|f next].
    + pose proof (csum_partial_spec le) as _.
      destruct (finish_form le 16 (not16 (csum_ipv6_magic le s6 d6 (Z.of_nat (length first)) 6 0)) (new_ports ports first) eq_refl ltac:(lia) FN) as (c & -> & U & _).
      { apply not16_u16. destruct (ipv6_magic_spec le s6 d6 (Z.of_nat (length first)) 6 0 u32_0) as (x & -> & Ux & _). apply csum_fold_u16. exact Ux. }
      eexists. split; [reflexivity|]. split; [rewrite put_length; rewrite ?st16_length; lia|]. apply put_u8; [apply st16_u8; exact U|exact FN].
    + eexists. split; [reflexivity|]. apply Q. apply list_csum_u16. cbn [concat] in *. apply Forall_app. split; [apply put_u8; [apply u8_00|exact FN]|exact F2].
  - eexists. split; [reflexivity|]. apply Q.
    apply update46_spec; [apply get16_u16; exact F|apply put_u8; [apply u8_00|apply firstn_u8; exact F]|apply firstn_u8, put_u8; [apply u8_00|exact FN]].
Qed.
Lemma some_inj (A : Type) (a b : A) : Some a = Some b -> a = b. Proof. congruence. Qed.
Lemma udp46_form le s n mf am ports s4 d4 s6 d6 first next r : Csum_Properties.pieces first next -> (8 <= length first)%nat ->
  ttp46_udp le s n mf am ports s4 d4 s6 d6 first next = Some r -> exists d1, r = d1 :: next /\ length d1 = length first /\ Forall is_u8 d1.
Proof.
  intros [[F _] _] L. apply Forall_app in F. destruct F as [F F2]. pose proof (new_ports_u8 ports first F) as FN.
  assert (LN : length (new_ports ports first) = length first) by (apply new_ports_length; lia).
  assert (Q : forall c, is_u16 c -> length (put 6 (st16 le c) (put 6 [0; 0] (new_ports ports first))) = length first
    /\ Forall is_u8 (put 6 (st16 le c) (put 6 [0; 0] (new_ports ports first)))).
  { intros c U. split; [rewrite put_length; rewrite ?put_length; rewrite ?st16_length; cbn [length]; lia|].
    apply put_u8; [apply st16_u8; exact U|apply put_u8; [apply u8_00|exact FN]]. }
  assert (PA : exists d1, finish_partial le 6 (put 6 (st16 le (not16 (csum_ipv6_magic le s6 d6 (Z.of_nat (length first)) 17 0))) (new_ports ports first)) = d1
     /\ length d1 = length first /\ Forall is_u8 d1).
  { destruct (finish_form le 6 (not16 (csum_ipv6_magic le s6 d6 (Z.of_nat (length first)) 17 0)) (new_ports ports first) eq_refl ltac:(lia) FN) as (c & -> & U & _).
    { apply not16_u16. destruct (ipv6_magic_spec le s6 d6 (Z.of_nat (length first)) 17 0 u32_0) as (x & -> & Ux & _). apply csum_fold_u16. exact Ux. }
    eexists. split; [reflexivity|]. split; [rewrite put_length; rewrite ?st16_length; lia|]. apply put_u8; [apply st16_u8; exact U|exact FN]. }
  destruct PA as (pa & PA & PL & PF). unfold ttp46_udp. cbv zeta. rewrite PA.
  destruct (get16 le 6 first =? 0); [destruct (can_compute_csum n mf am); [|discriminate]; intros [= <-]; eauto|].
  destruct (is_partial s); cbn [negb].
  - destruct next as [|f next]; intros R; apply some_inj in R; subst r; [eauto|].
    eexists. split; [reflexivity|]. apply Q. apply list_csum_u16. cbn [concat] in *. apply Forall_app. split; [apply put_u8; [apply u8_00|exact FN]|exact F2].
  - intros R. apply some_inj in R. subst r. eexists. split; [reflexivity|]. apply Q.
    apply update46_spec; [apply get16_u16; exact F|apply put_u8; [apply u8_00|apply firstn_u8; exact F]|apply firstn_u8, put_u8; [apply u8_00|exact FN]].
Qed.

Lemma word0_get le off seg : Forall is_u8 seg -> (get16 le off seg = 0 <-> word seg off = 0).
Proof.
  intros F. pose proof (oct_u8 seg off F) as A. pose proof (oct_u8 seg (off + 1) F) as B. unfold get16, ld16, word, oct, is_u8 in *. change (2^8) with 256 in *.
  replace (S off) with (off + 1)%nat by lia. destruct le; lia.
Qed.
Lemma pieces_one seg : datagram seg -> Csum_Properties.pieces seg [].
Proof. intros D. split; [cbn; rewrite app_nil_r; exact D|constructor]. Qed.

Lemma seg46_ok le s nat64 mf am ports s4 d4 s6 d6 p first next : Csum_Properties.pieces first next -> good_ports ports ->
  let seg := first ++ concat next in
  (p = 6 -> (20 <= length first)%nat) -> (p = 17 \/ p = 1 -> (8 <= length first)%nat) -> (p = 1 -> oct first 0 = 8 \/ oct first 0 = 0) ->
  match seg46_of le s nat64 mf am ports s4 d4 s6 d6 p first next with
  | Some r => exists d1, r = d1 :: next /\ length d1 = length first /\ Forall is_u8 d1
      /\ segment46 (s = CS_PARTIAL) ports s4 d4 s6 d6 p seg (d1 ++ concat next)
      /\ (p = 17 -> word seg 6 = 0 -> next = [] -> ok6 s6 d6 17 d1)
  | None => p = 17 /\ word seg 6 = 0 /\ nat64 = false /\ (mf = true \/ am = false)
  end.
Proof.
  intros PI G seg L6 L8 T. pose proof PI as [D EV]. pose proof D as [F _]. fold seg in D, F. pose proof F as F'. unfold seg in F'. apply Forall_app in F'. destruct F' as [F1 F2].
  unfold seg46_of. destruct (p =? 6) eqn:E6.
  { assert (E : p = 6) by lia. specialize (L6 E). destruct (tcp46_form le s ports s4 d4 s6 d6 first next PI L6) as (d1 & X1 & X2 & X3).
    exists d1. split; [exact X1|]. split; [exact X2|]. split; [exact X3|]. split; [|intros; lia].
    pose proof (C31_tcp46 le s ports s4 d4 s6 d6 first next PI L6 G) as [S1 S2]. rewrite X1 in S1, S2. cbn [concat] in S1, S2. fold seg in S1, S2.
    split; [|split; [intros; lia|split; [intros; lia|intros; lia]]]. intros _. split; [exact S1|]. rewrite E. split; [intros P; apply S2; left; exact P|].
    intros N rest DR. destruct (tcp46_app le s ports s4 d4 s6 d6 first next (concat next ++ rest) N L6) as (d1' & Y1 & Y2).
    rewrite X1 in Y1. injection Y1 as <-. unfold seg in DR. rewrite <- app_assoc in DR.
    pose proof (C31_tcp46 le s ports s4 d4 s6 d6 _ [] (pieces_one _ DR) ltac:(rewrite app_length; lia) G) as [_ S3]. cbn [concat] in S3. rewrite Y2 in S3.
    cbn [concat] in S3. rewrite !app_nil_r in S3. unfold seg. rewrite <- !app_assoc, S3. split; [intros [C|C]; [elim (N C)|exact C]|intros C; right; exact C]. }
  destruct (p =? 17) eqn:E17.
  { assert (E : p = 17) by lia. specialize (L8 (or_introl E)).
    assert (W : word seg 6 = word first 6) by (unfold seg, word, oct; rewrite !app_nth1 by lia; reflexivity).
    destruct (Z.eq_dec (word first 6) 0) as [Z0|Z0].
    - assert (G0 : get16 le 6 first = 0) by (apply word0_get; assumption).
      destruct (ttp46_udp le s nat64 mf am ports s4 d4 s6 d6 first next) as [r|] eqn:R.
      + destruct (udp46_form _ _ _ _ _ _ _ _ _ _ _ _ _ PI L8 R) as (d1 & -> & X2 & X3). exists d1. split; [reflexivity|]. split; [exact X2|]. split; [exact X3|].
        assert (D1 : datagram first) by (split; [exact F1|]; destruct D as [_ D]; unfold seg in D; rewrite app_length in D; lia).
        assert (B : nth 6 first 0 = 0 /\ nth 7 first 0 = 0).
        { pose proof (oct_u8 first 6 F1). pose proof (oct_u8 first 7 F1). unfold word, oct, is_u8 in *. change (6 + 1)%nat with 7%nat in *. lia. }
        pose proof (C31_udp46_zero le s nat64 mf am ports s4 d4 s6 d6 first D1 L8 G (proj1 B) (proj2 B)) as K.
        assert (R1 : ttp46_udp le s nat64 mf am ports s4 d4 s6 d6 first [] = Some [d1]).
        { unfold ttp46_udp in *. cbv zeta in *. rewrite G0 in *. cbn [Z.eqb] in *. destruct (can_compute_csum nat64 mf am); [|discriminate R]. injection R as ->. reflexivity. }
        rewrite R1 in K. destruct K as (_ & out & [= <-] & K2 & K3 & _).
        split; [|intros _ _ _; exact K3]. split; [intros; lia|]. split; [|split; [intros; lia|intros; lia]]. intros _. split; [|intros C; lia].
        destruct K2 as (Q1 & Q2 & Q3). split; [unfold seg; rewrite !app_length; lia|]. split.
        * intros i Hi N1 N2. destruct (lt_dec i (length first)); [unfold seg; rewrite !app_nth1 by lia; apply Q2; lia|unfold seg; rewrite !app_nth2 by lia; rewrite Q1; reflexivity].
        * destruct ports as [[a b]|]; [rewrite !app_nth1 by lia; exact Q3|]. intros i Hi. unfold seg. rewrite !app_nth1 by lia. apply Q3. exact Hi.
      + split; [exact E|]. split; [lia|]. unfold ttp46_udp in R. cbv zeta in R. rewrite G0 in R. cbn [Z.eqb] in R. unfold can_compute_csum in R.
        destruct nat64; [discriminate|]. split; [reflexivity|]. destruct mf; [left; reflexivity|]. destruct am; [discriminate R|right; reflexivity].
    - assert (B : nth 6 first 0 <> 0 \/ nth 7 first 0 <> 0) by (unfold word, oct in Z0; change (6 + 1)%nat with 7%nat in Z0; lia).
      destruct (C31_udp46 le s nat64 mf am ports s4 d4 s6 d6 first next PI L8 G B) as (r & R & S1 & S2). rewrite R.
      destruct (udp46_form _ _ _ _ _ _ _ _ _ _ _ _ _ PI L8 R) as (d1 & -> & X2 & X3). exists d1. split; [reflexivity|]. split; [exact X2|]. split; [exact X3|].
      cbn [concat] in S1, S2. fold seg in S1, S2.
      split; [|intros _ C; lia]. split; [intros; lia|]. split; [|split; [intros; lia|intros; lia]]. intros _. split; [exact S1|]. intros _. rewrite E. split; [intros P; apply S2; left; exact P|].
      intros N rest DR. assert (GN : get16 le 6 first <> 0) by (rewrite word0_get; assumption).
      destruct (udp46_app le s nat64 mf am ports s4 d4 s6 d6 first next (concat next ++ rest) N L8 GN) as (d1' & Y1 & Y2).
      rewrite R in Y1. injection Y1 as <-. unfold seg in DR. rewrite <- app_assoc in DR.
      assert (B' : nth 6 (first ++ concat next ++ rest) 0 <> 0 \/ nth 7 (first ++ concat next ++ rest) 0 <> 0) by (rewrite !app_nth1 by lia; exact B).
      destruct (C31_udp46 le s nat64 mf am ports s4 d4 s6 d6 _ [] (pieces_one _ DR) ltac:(rewrite app_length; lia) G B') as (r & Y3 & _ & S3). rewrite Y2 in Y3. injection Y3 as <-.
      cbn [concat] in S3. rewrite !app_nil_r in S3. unfold seg. rewrite <- !app_assoc, S3. split; [intros [C|C]; [elim (N C)|exact C]|intros C; right; exact C]. }
  destruct (p =? 1) eqn:E1.
  { assert (E : p = 1) by lia. specialize (L8 (or_intror E)). specialize (T E).
    assert (GI : good_id (option_map fst ports)) by (destruct ports as [[? ?]|]; [apply G|exact Logic.I]).
    assert (LS : (8 <= length seg)%nat) by (unfold seg; rewrite app_length; lia).
    assert (OF : forall i, (i < 8)%nat -> oct seg i = oct first i) by (intros i Hi; unfold seg, oct; rewrite app_nth1 by lia; reflexivity).
    assert (T' : oct seg 0 = 8 \/ oct seg 0 = 0) by (rewrite OF by lia; exact T).
    destruct (C33_echo46 le s6 d6 (option_map fst ports) seg D LS GI T') as [(E1' & E2 & E3 & E4 & E5) E6'].
    set (e := echo46 le s6 d6 (option_map fst ports) seg) in *.
    assert (FE : Forall is_u8 e).
    { destruct (echo46_form le s6 d6 (option_map fst ports) seg D LS GI) as (c & EE & U & _). fold e in EE. rewrite EE.
      apply Forall_app. split; [|apply skipn_u8; exact F]. apply put_u8; [apply st16_u8; exact U|].
      set (t := if nth 0 seg 0 =? 8 then 128 else 129). destruct (eh_form t (option_map fst ports) seg) as (_ & _ & _ & X & _); try assumption.
      destruct (nth 0 seg 0 =? 8) in t; subst t; unfold is_u8; change (2^8) with 256; lia. }
    set (d1 := put 0 (firstn 8 e) first).
    assert (L1 : length d1 = length first) by (unfold d1; apply put_length; rewrite firstn_length; lia).
    assert (EQ : d1 ++ concat next = e).
    { unfold d1. rewrite <- put_app by (rewrite firstn_length; lia). fold seg. unfold put. change (firstn 0 seg) with (@nil Z). rewrite app_nil_l, firstn_length, Nat.min_l by lia. change (0 + 8)%nat with 8%nat.
      rewrite <- (firstn_skipn 8 e) at 2. f_equal. symmetry. apply skipn_eq; [exact E1'|]. intros i Hi. apply E5. lia. }
    exists d1. split; [reflexivity|]. split; [exact L1|]. split; [unfold d1; apply put_u8; [apply firstn_u8; exact FE|exact F1]|]. split; [|intros; lia].
    rewrite EQ. split; [intros; lia|]. split; [intros; lia|]. split; [|intros; lia]. intros _. split.
    { unfold oct in *. rewrite E2, E3. pose proof (oct_u8 seg 1 F) as U. unfold oct, is_u8 in U. change (2^8) with 256 in U.
      destruct T' as [T'|T']; rewrite T'; cbn [Z.eqb Pos.eqb].
      - exists 0, 255, (Some 0). split; [left; reflexivity|]. split; [lia|reflexivity].
      - exists 0, 255, (Some 0). split; [right; left; reflexivity|]. split; [lia|reflexivity]. }
    split; [split; [exact E1'|]; split; [exact E4|exact E5]|]. intros [i X]. rewrite E6'. split; [intros [A|A]; [exact A|elim (X (A i))]|tauto]. }
  exists first. split; [reflexivity|]. split; [reflexivity|]. split; [exact F1|]. split; [|intros; lia].
  split; [intros; lia|]. split; [intros; lia|]. split; [intros; lia|]. intros _ _ _. reflexivity.
Qed.

(** ** Options, outgoing buffers *)

Lemma src_route_mono m fin : forall fuel lin lin' cur b, (lin <= lin')%nat -> src_route fuel lin m cur fin = Ok b -> src_route fuel lin' m cur fin = Ok b.
Proof.
  assert (DM : forall lin lin' o n (A : Type) (k : res A) x, (lin <= lin')%nat -> (let! _ := direct lin o n in k) = Ok x -> (let! _ := direct lin' o n in k) = Ok x).
  { intros lin lin' o n A k x L. unfold direct. destruct (o + n <=? lin)%nat eqn:E; [|discriminate]. apply Nat.leb_le in E.
    rewrite (proj2 (Nat.leb_le (o + n) lin')) by lia. tauto. }
  induction fuel as [|fuel IH]; intros lin lin' cur b L; cbn [src_route]; [discriminate|]. intros H.
  assert (D1 : (cur + 1 <= lin)%nat) by (unfold direct in H; destruct (cur + 1 <=? lin)%nat eqn:E; [apply Nat.leb_le in E; exact E|discriminate]).
  rewrite direct_ok in H by exact D1. rewrite direct_ok by lia. cbn [bind] in *.
  destruct ((byte m cur =? 131) || (byte m cur =? 137)).
  - revert H. apply DM. exact L.
  - destruct (byte m cur =? 0); [exact H|]. destruct (byte m cur =? 1); cbn [bind] in *.
    + destruct (fin <=? cur + 1)%nat; [exact H|]. exact (IH _ _ _ _ L H).
    + unfold direct in *. destruct (cur + 1 + 1 <=? lin)%nat eqn:E; [|discriminate]. apply Nat.leb_le in E. rewrite (proj2 (Nat.leb_le (cur + 1 + 1) lin')) by lia.
      cbn [bind] in *. destruct (fin <=? cur + Z.to_nat (byte m (cur + 1)))%nat; [exact H|]. exact (IH _ _ _ _ L H).
Qed.
Lemma route_spec fuel l m : Forall is_u8 m -> options m (ihl m 0) 20 -> (20 <= ihl m 0)%nat -> (ihl m 0 <= l)%nat -> (ihl m 0 < 20 + fuel)%nat ->
  exists b, has_unexpired_src_route fuel l m 0 = Ok b
    /\ (b = true -> exists o, at_opt m (ihl m 0) 20 o /\ source_route m o /\ unexpired m o)
    /\ (b = false -> forall o, at_opt m (ihl m 0) 20 o -> source_route m o -> exists o', (o' <= o)%nat /\ at_opt m (ihl m 0) 20 o' /\ source_route m o' /\ ~ unexpired m o').
Proof.
  intros F O I L FU. destruct (C40_partial m 0 fuel F O I FU) as (b & E & B). exists b. split; [|exact B].
  unfold has_unexpired_src_route in *. rewrite ip_hlen_ihl in *. cbn [Nat.add] in *. destruct (ihl m 0 <=? 20)%nat; [exact E|].
  exact (src_route_mono m _ _ _ _ _ _ L E).
Qed.

Lemma repushed_app head m up k l3 : (up <= k <= length m)%nat -> (l3 <= length head + up)%nat -> Forall is_u8 head -> Forall is_u8 m ->
  let o := repushed head m k ((k - up) + l3) in
  length o = (l3 + (length m - up))%nat /\ skipn l3 o = skipn up m /\ Forall is_u8 o.
Proof.
  intros K H Fh Fm o. unfold o, repushed. set (b := head ++ firstn k m).
  assert (LB : length b = (length head + k)%nat) by (unfold b; rewrite app_length, firstn_length; lia).
  assert (FB : Forall is_u8 b) by (apply Forall_app; split; [exact Fh|apply firstn_u8; exact Fm]).
  split; [rewrite app_length, !skipn_length, LB; lia|]. split.
  - rewrite skipn_app, skipn_length, LB. replace (l3 - (length head + k - (length head + k - (k - up + l3))))%nat with 0%nat by lia. cbn [skipn].
    assert (X : skipn l3 (skipn (length head + k - (k - up + l3)) b) = skipn up (firstn k m)).
    { apply nth_ext with (d := 0) (d' := 0); [rewrite !skipn_length, LB, firstn_length; lia|]. intros n Hn. rewrite !nth_skipn_add. unfold b. rewrite app_nth2 by lia. f_equal. lia. }
    rewrite X. rewrite <- (firstn_skipn k m) at 3. rewrite skipn_app, firstn_length. replace (up - Nat.min k (length m))%nat with 0%nat by lia. reflexivity.
  - apply Forall_app. split; apply skipn_u8; assumption.
Qed.

Lemma autofill_skip hdrs mf : length hdrs = 48%nat -> forall os off, Forall (fun o => (48 <= length o)%nat) os ->
  map (skipn 48) (autofill hdrs mf off os) = map (skipn 48) os.
Proof.
  intros LH. induction os as [|o os IH]; intros off L; [reflexivity|]. inversion L; subst. cbn [autofill map]. cbv zeta. f_equal; [|apply IH; assumption].
  assert (A : length (put 0 hdrs o) = length o) by (apply put_length; lia).
  assert (B : forall v, length (put 4 (octets 2 v) (put 0 hdrs o)) = length o) by (intros v; rewrite put_length; rewrite ?octets_length; lia).
  unfold build_ipv6_frag_off_field. rewrite !skipn_put; rewrite ?octets_length, ?B, ?A; try lia. reflexivity.
Qed.
Lemma autofill_u8 hdrs mf : Forall is_u8 hdrs -> forall os off, Forall (Forall is_u8) os -> Forall (Forall is_u8) (autofill hdrs mf off os).
Proof.
  intros FH. induction os as [|o os IH]; intros off F; [constructor|]. inversion F; subst. cbn [autofill]. cbv zeta. constructor; [|apply IH; assumption].
  unfold build_ipv6_frag_off_field. repeat (apply put_u8; [first [apply octets_u8|exact FH]|]). assumption.
Qed.

Lemma series_head tc hl s d nh id more off o os d1 pl d' : series tc hl s d nh id more off pl (o :: os) -> pl = skipn 48 o ++ d' ->
  length d1 = length (skipn 48 o) -> (48 <= length o)%nat ->
  series tc hl s d nh id more off (d1 ++ d') ((firstn 48 o ++ d1) :: os).
Proof.
  intros SE PL L1 LO. set (o' := firstn 48 o ++ d1).
  assert (F48 : firstn 48 o' = firstn 48 o) by (unfold o'; rewrite firstn_app_l by (rewrite firstn_length; lia); rewrite firstn_firstn; reflexivity).
  assert (LO' : length o' = length o) by (unfold o'; rewrite app_length, firstn_length, L1, skipn_length; lia).
  assert (SK : skipn 48 o' = d1) by (unfold o'; rewrite skipn_app, skipn_all2 by (rewrite firstn_length; lia); rewrite firstn_length; replace (48 - Nat.min 48 (length o))%nat with 0%nat by lia; reflexivity).
  assert (N : forall i, (i < 48)%nat -> oct o' i = oct o i).
  { intros i Hi. rewrite <- (oct_firstn 48 o' i), <- (oct_firstn 48 o i), F48 by lia. reflexivity. }
  assert (W : forall i, (i + 2 <= 48)%nat -> word o' i = word o i) by (intros i Hi; unfold word; rewrite !N by lia; reflexivity).
  assert (FI : forall i w, (i + w <= 48)%nat -> field o' i w = field o i w).
  { intros i w Hi. rewrite <- (field_firstn 48 o' i w), <- (field_firstn 48 o i w), F48 by lia. reflexivity. }
  assert (TR : forall off mf dd, fragment6 tc hl s d nh id o off mf dd -> d1 <> [] -> fragment6 tc hl s d nh id o' off mf d1).
  { intros off0 mf dd (H1 & H2 & _ & _) ND. split; [|split; [|split; [exact SK|exact ND]]].
    - unfold ipv6_header, tclass in *. cbn [Nat.add] in *. rewrite LO'. rewrite !N, !W, !FI by lia. exact H1.
    - unfold fragment_header, fr_offset, fr_more in *. cbn [Nat.add] in *. rewrite !N, !W by lia. exact H2. }
  assert (ND : forall dd, fragment6 tc hl s d nh id o off more dd \/ fragment6 tc hl s d nh id o off True dd -> d1 <> [] /\ skipn 48 o = dd).
  { intros dd H. assert (X : skipn 48 o = dd /\ dd <> []) by (destruct H as [H|H]; destruct H as (_ & _ & H1 & H2); auto). destruct X as [X1 X2]. split; [|exact X1].
    intros E. rewrite E in L1. destruct dd; [congruence|]. rewrite X1 in L1. discriminate L1. }
  clearbody o'. inversion SE as [off0 o0 dd FR E1 E2 E3|off0 o0 dd dd' os0 FR SR E1 E2 E3].
  - destruct (ND _ (or_introl FR)) as [N1 N2]. assert (d' = []). { rewrite N2, <- E2 in PL. rewrite <- (app_nil_r dd) in PL at 1. apply app_inv_head in PL. auto. }
    subst d'. rewrite app_nil_r. constructor. eapply TR; eauto.
  - destruct (ND _ (or_intror FR)) as [N1 N2]. assert (dd' = d'). { rewrite N2, <- E2 in PL. apply app_inv_head in PL. exact PL. }
    subst dd'. apply s_more; [eapply TR; eauto|]. rewrite L1, N2. exact SR.
Qed.

Lemma slow_shape fuel reset hp s d lin m fresh mpl payload r :
  Forall is_u8 m -> Forall is_u8 payload -> (forall i, length (fresh i) = 48%nat) -> (forall i, Forall is_u8 (fresh i)) -> is_u128 s -> is_u128 d ->
  1280 <= mpl < 4294967296 -> mpl - 48 < Z.of_nat (length payload) -> fr4_offset m 0 + Z.of_nat (length payload) <= 65515 ->
  ttp46_ipv6_external fuel reset hp s d lin m (allocate_slow fresh mpl payload) = XOk r ->
  exists o os, r = o :: os /\ os <> [] /\ (1280 <= length o)%nat /\ carried r = payload
    /\ Forall (fun f => Nat.even (length f) = true) (removelast (map (skipn 48) r)) /\ Forall (Forall is_u8) r.
Proof.
  intros F Fp FL FU Us Ud M LP B. unfold allocate_slow. set (per := Z.to_nat (8 * (u32 (mpl - 48) / 8))).
  assert (PER : Z.of_nat per = 8 * ((mpl - 48) / 8)). { unfold per. rewrite u32_mod, Z.mod_small by lia. lia. }
  assert (PL : payload <> []) by (intros ->; cbn in LP; lia).
  destruct (pieces_spec per ltac:(lia) (length payload) payload (Nat.le_refl _) PL) as (P1 & P2 & P3 & P4).
  destruct (P4 ltac:(lia)) as (p & p2 & ps & PE).
  set (outs := with_headers fresh 0 (Hdr_Model.pieces (length payload) per payload)).
  assert (CA : carried outs = payload) by (unfold outs; rewrite with_headers_carried by assumption; exact P1).
  assert (WF : wf_chain outs).
  { unfold outs. apply (with_headers_wf fresh (Z.of_nat per)); [assumption|lia| |].
    - eapply Forall_impl; [|exact P2]. cbv beta. lia.
    - intros qs p' q E N. rewrite (P3 _ _ _ E N). reflexivity. }
  assert (UO : Forall (Forall is_u8) outs).
  { unfold outs. rewrite <- P1 in Fp. clear - Fp FU. generalize 0%nat. induction (Hdr_Model.pieces (length payload) per payload) as [|q qs IH]; intros i; cbn [with_headers]; [constructor|].
    cbn [concat] in Fp. apply Forall_app in Fp. constructor; [apply Forall_app; split; [apply FU|apply Fp]|apply IH; apply Fp]. }
  assert (O : exists o o2 os, outs = o :: o2 :: os /\ o = fresh 0%nat ++ p).
  { unfold outs. rewrite PE. cbn [with_headers]. eauto. }
  destruct O as (o & o2 & os & OE & OP). rewrite OE. intros X.
  assert (Lo : (48 < length o)%nat) by (rewrite OE in WF; destruct WF; assumption).
  pose proof (ext46_spec fuel reset hp s d lin m o (o2 :: os) F ltac:(lia)) as E. rewrite X in E. destruct E as (E1 & E2 & E3).
  pose proof (hops46_u8 hp m F E2) as HU.
  rewrite OE in WF, CA, UO. pose proof WF as (W1 & W2 & W3).
  assert (LPer : length p = per) by (apply (P3 [] p (p2 :: ps)); [exact PE|discriminate]).
  assert (OL : length o = (48 + length p)%nat) by (rewrite OP, app_length, FL; reflexivity).
  change (some_next (o2 :: os)) with true in E3. rewrite orb_true_r in E3.
  assert (Fo : Forall is_u8 o) by (inversion UO; assumption).
  destruct (written46_spec reset true m 0 (hops46 hp m) (u16 (Z.of_nat (length o) - 40)) s d o F Fo ltac:(cbv iota; lia) HU ltac:(apply u16_range; rewrite u16_mod; lia) Us Ud) as (A1 & A2 & A3 & _).
  set (o' := written46 reset true m 0 (hops46 hp m) (u16 (Z.of_nat (length o) - 40)) s d o) in *.
  rewrite E3. unfold autofill_hdr6. cbv zeta.
  set (o'' := put 42 [byte o' 42; 2 * (byte o' 43 / 2) + 1] o'). assert (L'' : length o'' = length o') by (apply put_length; cbn [length]; lia).
  assert (LH : length (firstn 48 o'') = 48%nat) by (rewrite firstn_length; lia).
  pose proof (wf_chain_long _ W3) as WL.
  assert (SK : skipn 48 o'' = skipn 48 o) by (unfold o''; rewrite skipn_put; [exact A3|cbn [length]; lia|cbn [length]; lia]).
  assert (MS : forall mf off, map (skipn 48) (o'' :: autofill (firstn 48 o'') mf off (o2 :: os)) = map (skipn 48) (o :: o2 :: os)).
  { intros mf off. cbn [map]. rewrite SK. f_equal. exact (autofill_skip _ mf LH (o2 :: os) off WL). }
  eexists _, _. split; [reflexivity|]. split; [intros N; apply (f_equal (@length (list Z))) in N; cbn [autofill length] in N; discriminate N|]. split; [lia|]. split; [unfold carried; rewrite MS; exact CA|]. split.
  - rewrite MS. clear - WF. revert WF. generalize (o :: o2 :: os) as l. induction l as [|a l IH]; intros W; [constructor|]. destruct W as (W1 & W2 & W3). destruct l as [|b l]; [constructor|].
    cbn [map removelast]. constructor; [|apply (IH W3)]. specialize (W2 ltac:(discriminate)). rewrite skipn_length.
    apply Nat.even_spec. exists (4 * Z.to_nat ((Z.of_nat (length a) - 48) / 8))%nat. lia.
  - assert (F'' : Forall is_u8 o'').
    { unfold o''. apply put_u8; [|exact A2]. pose proof (oct_u8 o' 42 A2) as U1. pose proof (oct_u8 o' 43 A2) as U2. change byte with oct. unfold is_u8 in *. change (2^8) with 256 in *.
      repeat constructor; lia. }
    constructor; [exact F''|]. apply autofill_u8; [apply firstn_u8; exact F''|]. inversion UO; assumption.
Qed.

Lemma slow_alloc fresh mpl payload : (forall i, length (fresh i) = 48%nat) -> 1280 <= mpl -> mpl < 4294967296 -> mpl - 48 < Z.of_nat (length payload) ->
  exists o next, allocate_slow fresh mpl payload = o :: next /\ (48 <= length o)%nat.
Proof.
  intros FL M1 M2 LP. unfold allocate_slow. set (per := Z.to_nat (8 * (u32 (mpl - 48) / 8))).
  assert (PER : Z.of_nat per = 8 * ((mpl - 48) / 8)). { unfold per. rewrite u32_mod, Z.mod_small by lia. lia. }
  assert (PL : payload <> []) by (intros ->; cbn in LP; lia).
  destruct (pieces_spec per ltac:(lia) (length payload) payload (Nat.le_refl _) PL) as (_ & _ & _ & P4).
  destruct (P4 ltac:(lia)) as (p & p2 & ps & PE). rewrite PE. cbn [with_headers]. eexists _, _. split; [reflexivity|]. rewrite app_length, FL. lia.
Qed.

(** ** IPv4 to IPv6, no error *)

Record view4 (m : list Z) (lin l : nat) (mt : meta) (p : Z) : Prop := View4 {
  w_packet : packet4 m p (l4off mt) (payoff mt);
  w_fh : fhdr mt = O;
  w_tcp : l4p mt = TCP <-> p = 6; w_udp : l4p mt = UDP <-> p = 17; w_icmp : l4p mt = ICMP <-> p = 1;
  w_20 : (20 <= l)%nat; w_pay : (payoff mt <= l)%nat; w_lin : (lin <= l <= length m)%nat;
  w_inner : p = 1 -> icmp4_error_type (oct m (l4off mt)) -> exists pay', inner4 m (payoff mt) pay' /\ (pay' <= l)%nat
}.
Lemma parse_view4 mem m lin mt l : (lin <= length m)%nat -> pkt_init_ipv4 mem m lin = Good (mt, l) -> view4 m lin l mt (oct m 9).
Proof. intros L G. destruct (C62_parses mem m lin mt l L G) as (H1 & H2 & H3 & H4 & H5 & H6 & H7 & H8 & H9). constructor; assumption. Qed.

Section out46.
Context (e : env46) (m : list Z) (lin l : nat) (mt : meta) (p : Z).
Context (F : Forall is_u8 m) (V : view4 m lin l mt p).
Let up := l4off mt.
Let pay := payoff mt.
Let seg := skipn up m.

Lemma a_p : p = oct m 9. Proof. destruct V as [PK]. apply PK. Qed.
Lemma a_up : up = ihl m 0. Proof. destruct V as [PK]. apply PK. Qed.
Lemma a_first : first4 m 0 = true <-> fr4_offset m 0 = 0.
Proof. unfold first4. rewrite frag_off4_offset, Z.eqb_eq. tauto. Qed.
Lemma a_icmp_first : p = 1 -> fr4_offset m 0 = 0.
Proof. intros X. destruct V as [PK]. destruct PK as (_ & _ & _ & _ & _ & _ & W). apply (W X). Qed.
Lemma a_pay : (up <= pay <= length m)%nat.
Proof.
  destruct V as [PK]. destruct PK as (_ & _ & _ & T & N & L & _). split; [|exact L]. unfold up, pay.
  destruct (Z.eq_dec (fr4_offset m 0) 0) as [D|D]; [|rewrite (N D); lia]. destruct (T D) as (T1 & T2 & T3).
  destruct (Z.eq_dec p 6); [destruct (T1 e0); lia|]. destruct (Z.eq_dec p 17); [rewrite T2 by tauto; lia|]. destruct (Z.eq_dec p 1); [rewrite T2 by tauto; lia|].
  rewrite T3 by tauto. lia.
Qed.
Lemma a_error : error4 m mt = true <-> p = 1 /\ icmp4_error_type (oct m up).
Proof.
  destruct V. unfold error4. split.
  - destruct (l4p mt) eqn:E; try discriminate. intros H. split; [apply w_icmp0; reflexivity|]. apply err4_iff. exact H.
  - intros [P T]. rewrite (proj2 w_icmp0 P). apply err4_iff. exact T.
Qed.
Context (P58 : p <> 58) (NE : p = 1 -> ~ icmp4_error_type (oct m up)).
Context (DO : p = 6 -> fr4_offset m 0 = 0 -> 5 <= oct m (up + 12) / 16).
Lemma a_l4 : fr4_offset m 0 = 0 -> (p = 6 -> (up + 20 <= pay <= up + 60)%nat) /\ (p = 17 \/ p = 1 -> (pay = up + 8)%nat).
Proof.
  intros FP. destruct V as [PK]. destruct PK as (_ & _ & _ & T & _). destruct (T FP) as (T1 & T2 & T3).
  split; [intros X; destruct (T1 X); specialize (DO X FP); pose proof (oct_u8 m (up + 12) F) as U; unfold is_u8 in U; change (2^8) with 256 in U; unfold up, pay in *; lia|
    intros X; exact (T2 X)].
Qed.
Lemma a_err_false : error4 m mt = false.
Proof. destruct (error4 m mt) eqn:X; [|reflexivity]. apply a_error in X. elim (NE (proj1 X) (proj2 X)). Qed.
Lemma echo_type46 t c r : xlat46_icmp_type t c = XOk r -> ~ icmp4_error_type t -> t = 8 \/ t = 0.
Proof.
  unfold xlat46_icmp_type, icmp4_error_type. intros H N.
  destruct (t =? 8) eqn:A; [left; lia|]. destruct (t =? 0) eqn:B; [right; lia|].
  assert (X : t <> 3 /\ t <> 11 /\ t <> 12) by (repeat split; intros ->; apply N; cbn; tauto).
  replace (t =? 3) with false in H by lia. replace (t =? 11) with false in H by lia. replace (t =? 12) with false in H by lia.
  cbn in H. discriminate.
Qed.
Lemma a_flow : match compute_flowix46 e l m mt with
  | XOk _ => p = 1 -> oct m up = 8 \/ oct m up = 0
  | XDrop j => p = 1 /\ j = J_UNKNOWN_ICMP4_TYPE /\ forall t c, ~ becomes rules46 (oct m up) (oct m (up + 1)) t c
  | _ => False end.
Proof.
  unfold compute_flowix46. change (byte m 9) with (oct m 9). rewrite <- a_p. pose proof a_pay as O1. pose proof (w_pay _ _ _ _ _ V) as WP. fold pay in WP.
  unfold xlat_nexthdr. destruct (p =? 1) eqn:E1.
  - apply Z.eqb_eq in E1. cbn [Z.eqb Pos.eqb orb].
    destruct (a_l4 (a_icmp_first E1)) as [_ L8]. specialize (L8 (or_intror E1)).
    fold up. rewrite direct_ok by lia. cbn [of_res xbind]. change byte with oct.
    rewrite type46_applied by (apply oct_u8; assumption).
    destruct (applied rules46 (oct m up) (oct m (up + 1))) as [[t c]|] eqn:A.
    + cbn [xbind]. assert (T : oct m up = 8 \/ oct m up = 0).
      { apply (echo_type46 (oct m up) (oct m (up + 1)) (t, c)); [|exact (NE E1)]. rewrite type46_applied by (apply oct_u8; assumption). rewrite A. reflexivity. }
      destruct T as [T|T]; rewrite T; cbn [Z.eqb Pos.eqb orb]; tauto.
    + cbn [xbind]. split; [exact E1|]. split; [reflexivity|]. apply applied_none; [exact disjoint46|exact A].
  - destruct ((p =? 6) || (p =? 17)) eqn:E6.
    + assert (X : p = 6 \/ p = 17) by lia. destruct (y_ports e); [intros; lia|]. destruct (first4 m 0) eqn:FI; [|intros; lia].
      apply a_first in FI. destruct (a_l4 FI) as [A B]. fold up.
      rewrite direct_ok by (destruct X as [X|X]; [specialize (A X)|specialize (B (or_introl X))]; lia). cbn. intros; lia.
    + replace (p =? 58) with false by lia. intros; lia.
Qed.

Context (SG : datagram seg) (GP : good_ports (y_ports e)).
Let n64 := match y_ports e with Some _ => true | None => false end.
Lemma a_step first next s4 d4 s6 d6 : fr4_offset m 0 = 0 -> first ++ concat next = seg -> (pay - up <= length first)%nat ->
  (p = 1 -> oct m up = 8 \/ oct m up = 0) ->
  ttp46_l4 e (y_ports e) s4 d4 s6 d6 l m 0 (l4p mt) up (pay - up) first next =
  match seg46_of (y_le e) (y_sum e) n64 (mf4 m 0) (y_amend e) (y_ports e) s4 d4 s6 d6 p first next with Some r => XOk r | None => XDrop J46_UDP_CSUM0 end.
Proof.
  intros FP EQ LF T. destruct (a_l4 FP) as [A B]. pose proof a_pay as O1. destruct V. fold pay in w_pay0.
  assert (PUT : forall k, (k <= length first)%nat -> put 0 (firstn k seg) first = first).
  { intros k Hk. rewrite <- EQ, firstn_app_l by lia. unfold put. change (firstn 0 first) with (@nil Z). rewrite app_nil_l, firstn_length, Nat.min_l by lia. cbn [Nat.add]. apply firstn_skipn. }
  unfold ttp46_l4, seg46_of. fold seg. destruct (l4p mt) eqn:P.
  - assert (E : p = 6) by (apply w_tcp0; reflexivity). specialize (A E). rewrite direct_ok by lia. cbn [of_res xbind].
    rewrite PUT by lia. rewrite E. reflexivity.
  - assert (E : p = 17) by (apply w_udp0; reflexivity). specialize (B (or_introl E)). rewrite direct_ok by lia. cbn [of_res xbind].
    rewrite PUT by lia. rewrite E. reflexivity.
  - assert (E : p = 1) by (apply w_icmp0; reflexivity). specialize (B (or_intror E)). rewrite direct_ok by lia. cbn [of_res xbind].
    rewrite E. cbn [Z.eqb Pos.eqb]. rewrite EQ. change byte with oct.
    replace (port_id (y_ports e)) with (option_map fst (y_ports e)) by (destruct (y_ports e) as [[? ?]|]; reflexivity).
    destruct (T E) as [U|U]; unfold xlat46_icmp_type; rewrite U; cbn [Z.eqb Pos.eqb xbind orb]; reflexivity.
  - assert (N6 : p <> 6) by (intros X; apply w_tcp0 in X; discriminate). assert (N17 : p <> 17) by (intros X; apply w_udp0 in X; discriminate).
    assert (N1 : p <> 1) by (intros X; apply w_icmp0 in X; discriminate). rewrite !(proj2 (Z.eqb_neq _ _)) by assumption. reflexivity.
Qed.

Context (US : is_u128 (y_src e)) (UD : is_u128 (y_dst e)) (GSO : y_gso e = 0) (FLI : y_flist e = []).
Context (HR : (48 <= length (y_head e) + up)%nat) (FH : Forall is_u8 (y_head e)).
Context (FR : forall i, length (y_fresh e i) = 48%nat) (FRU : forall i, Forall is_u8 (y_fresh e i)).
Context (OPT : options m up 20) (UP20 : (20 <= up)%nat) (FU : (up < 20 + y_fuel e)%nat).
Context (LIM : y_lim e < 4294967296) (OFF : fr4_offset m 0 + Z.of_nat (length seg) <= 65515).
Let tc := tc46 (y_reset e) m 0.
Let hops := hops46 (y_hairpin e) m.
Definition sent46 (outs : list (list Z)) (seg' : list Z) : Prop :=
  sent6 tc hops (y_src e) (y_dst e) (proto46 p) (word m 4) (fr4_more m 0) (fr4_offset m 0) seg' outs.

Lemma a_route : exists b, has_unexpired_src_route (y_fuel e) l m 0 = Ok b
    /\ (b = true -> exists o, at_opt m up 20 o /\ source_route m o /\ unexpired m o)
    /\ (b = false -> forall o, at_opt m up 20 o -> source_route m o -> exists o', (o' <= o)%nat /\ at_opt m up 20 o' /\ source_route m o' /\ ~ unexpired m o').
Proof.
  pose proof a_up as AU. rewrite AU in *. apply route_spec; try assumption. pose proof a_pay. pose proof (w_pay _ _ _ _ _ V). fold pay in H0. lia.
Qed.
Lemma a_plan : match plan46 (y_mtu e) (y_lim e) (error4 m mt) (df4 m 0) (fragmented4 m 0)
               (Skb (Z.of_nat (length m)) (Z.of_nat l) (y_flist e) (y_gso e)) (Z.of_nat pay) (Z.of_nat (pay - up)) with
  | XOk FAST => Z.of_nat (l3_len46 m 0 + length seg) <= y_mtu e /\ (~ df_set m 0 -> Z.of_nat (l3_len46 m 0 + length seg) <= y_lim e)
  | XOk (SLOW mpl) => mpl = Z.min (y_mtu e) (y_lim e) /\ 1280 <= mpl /\ mpl - 48 < Z.of_nat (length seg) /\ ~ df_set m 0
  | XIcmp j r i => j = J_PKT_TOO_BIG /\ r = E_FRAG_NEEDED /\ df_set m 0 /\ (y_mtu e < 4294967296 -> i = y_mtu e - 20) /\ y_mtu e < Z.of_nat (l3_len46 m 0 + length seg)
  | XDrop j => j = J46_BAD_MTU /\ Z.min (y_mtu e) (y_lim e) < 1280
  | XUB => False
  end.
Proof.
  rewrite a_err_false. unfold plan46, fragment_exceeds_mtu46. cbv zeta. cbn [gso flist slen]. rewrite GSO, FLI. change (negb (0 =? 0)) with false. cbv iota.
  destruct (Z.min (y_mtu e) (y_lim e) <? 1280) eqn:E1; [split; [reflexivity|lia]|].
  assert (DF : df4 m 0 = true <-> df_set m 0).
  { unfold df4, df_set. rewrite be16_word. rewrite Z.eqb_eq. tauto. }
  pose proof a_pay as O1. assert (LS : length seg = (length m - up)%nat) by (unfold seg; apply skipn_length).
  assert (SZ : 40 + (if fragmented4 m 0 then 8 else 0) + Z.of_nat (pay - up) + (Z.of_nat (length m) - Z.of_nat pay) = Z.of_nat (l3_len46 m 0 + length seg)).
  { unfold l3_len46. destruct (fragmented4 m 0); lia. }
  assert (L48 : (l3_len46 m 0 <= 48)%nat) by (unfold l3_len46; destruct (fragmented4 m 0); lia).
  rewrite SZ. destruct (df4 m 0) eqn:D.
  - pose proof (proj1 DF eq_refl) as D'. destruct (y_mtu e <? Z.of_nat (l3_len46 m 0 + length seg)) eqn:E2.
    + split; [reflexivity|]. split; [reflexivity|]. split; [exact D'|]. split; [intros UB; rewrite u32_mod, Z.mod_small by lia; lia|lia].
    + split; [lia|tauto].
  - assert (ND : ~ df_set m 0) by (intros X; apply DF in X; discriminate).
    destruct (Z.min (y_mtu e) (y_lim e) <? Z.of_nat (l3_len46 m 0 + length seg)) eqn:E2.
    + split; [reflexivity|]. split; [lia|]. split; [lia|exact ND].
    + split; lia.
Qed.

Lemma a_all :
  match xlat46 e l m mt with
  | XOk outs => (y_hairpin e = false -> 1 < oct m 8)
      /\ (forall o, at_opt m up 20 o -> source_route m o -> exists o', (o' <= o)%nat /\ at_opt m up 20 o' /\ source_route m o' /\ ~ unexpired m o')
      /\ Forall (Forall is_u8) outs
      /\ Forall (fun o => Z.of_nat (length o) <= y_mtu e /\ (~ df_set m 0 -> Z.of_nat (length o) <= y_lim e)) outs
      /\ (df_set m 0 -> length outs = 1%nat)
      /\ exists seg', sent46 outs seg'
         /\ (fr4_offset m 0 = 0 -> segment46 (y_sum e = CS_PARTIAL) (y_ports e) (field m 12 4) (field m 16 4) (y_src e) (y_dst e) p seg seg'
              /\ (p = 17 -> word seg 6 = 0 -> length outs = 1%nat -> ok6 (y_src e) (y_dst e) 17 seg'))
         /\ (fr4_offset m 0 <> 0 -> seg' = seg)
  | XIcmp j r i => (j = J46_TTL /\ r = E_TTL /\ i = 0 /\ y_hairpin e = false /\ oct m 8 <= 1)
      \/ (j = J46_SRC_ROUTE /\ r = E_SRC_ROUTE /\ i = 0 /\ exists o, at_opt m up 20 o /\ source_route m o /\ unexpired m o)
      \/ (j = J_PKT_TOO_BIG /\ r = E_FRAG_NEEDED /\ df_set m 0 /\ (y_mtu e < 4294967296 -> i = y_mtu e - 20) /\ y_mtu e < Z.of_nat (l3_len46 m 0 + length seg))
  | XDrop j => (j = J_UNKNOWN_ICMP4_TYPE /\ p = 1 /\ forall t c, ~ becomes rules46 (oct m up) (oct m (up + 1)) t c)
      \/ (j = J46_BAD_MTU /\ Z.min (y_mtu e) (y_lim e) < 1280)
      \/ (j = J46_UDP_CSUM0 /\ p = 17 /\ word seg 6 = 0 /\ y_ports e = None /\ (fr4_more m 0 \/ y_amend e = false))
  | XUB => False
  end.
Proof.
  unfold xlat46, ttp46_alloc_skb. fold up pay. pose proof a_flow as FL. destruct (compute_flowix46 e l m mt) as [[]|j|j r i|]; cbn [xbind]; try (exfalso; exact FL).
  2: { left. tauto. }
  pose proof a_plan as PLN. destruct (plan46 _ _ _ _ _ _ _ _) as [pl|j|j r i|]; cbn [xbind].
  2: { right. left. exact PLN. } 2: { right. right. exact PLN. } 2: { exact PLN. }
  pose proof a_pay as O1. assert (LS : length seg = (length m - up)%nat) by (unfold seg; apply skipn_length).
  pose proof a_route as (rb & RB & RT & RF). pose proof (off4_range m 0 F) as [OR1 OR2].
  assert (FS : Forall is_u8 seg) by (apply SG).
  assert (F46 : (12 + 4 <= length m)%nat /\ (16 + 4 <= length m)%nat) by (destruct V as [PK]; destruct PK as (X & _); lia).
  assert (UDPN : forall first next, (length first + length (concat next) = length seg)%nat -> match seg46_of (y_le e) (y_sum e) n64 (mf4 m 0) (y_amend e) (y_ports e) (field m 12 4) (field m 16 4) (y_src e) (y_dst e) p first next with
     Some _ => True | None => p = 17 /\ word seg 6 = 0 /\ n64 = false /\ (mf4 m 0 = true \/ y_amend e = false) -> p = 17 /\ word seg 6 = 0 /\ y_ports e = None /\ (fr4_more m 0 \/ y_amend e = false) end).
  { intros first next _. destruct (seg46_of _ _ _ _ _ _ _ _ _ _ _ _ _); [exact Logic.I|]. intros (X1 & X2 & X3 & X4). split; [exact X1|]. split; [exact X2|].
    split; [unfold n64 in X3; destruct (y_ports e); [discriminate|reflexivity]|]. rewrite <- mf4_more. exact X4. }
  destruct pl as [|mpl].
  - (* one packet *)
    cbn [xbind]. unfold allocate_fast. rewrite a_err_false. fold up pay.
    destruct (repushed_app (y_head e) m up pay (l3_len46 m 0) O1 ltac:(unfold l3_len46; destruct (fragmented4 m 0); lia) FH F) as (R1 & R2 & R3).
    set (al := repushed (y_head e) m pay (pay - up + l3_len46 m 0)) in *.
    assert (L3 : (40 <= l3_len46 m 0 <= 48)%nat) by (unfold l3_len46; destruct (fragmented4 m 0); lia).
    pose proof (ext46_spec (y_fuel e) (y_reset e) (y_hairpin e) (y_src e) (y_dst e) l m al [] F ltac:(lia)) as X.
    destruct (ttp46_ipv6_external _ _ _ _ _ _ _ _) as [outs|j|j r i|]; cbn [xbind].
    2: { elim X. }
    2: { destruct X as [(X1 & X2 & X3 & X4)|(X1 & X2 & X3 & X4 & X5 & _)]; [right; left|left; tauto]. split; [exact X1|]. split; [exact X2|]. split; [exact X3|]. apply RT. congruence. }
    2: { exact (X _ RB). }
    destruct X as (X1 & X2 & ->). specialize (RF ltac:(congruence)). cbn [some_next autofill_hdr6]. rewrite orb_false_r.
    assert (LU : u16 (Z.of_nat (length al) - 40) = Z.of_nat (length al) - 40) by (rewrite u16_mod; apply Z.mod_small; lia). rewrite LU.
    pose proof (hops46_u8 (y_hairpin e) m F X2) as HU. fold hops in HU |- *.
    destruct (written46_spec (y_reset e) (fragmented4 m 0) m 0 hops (Z.of_nat (length al) - 40) (y_src e) (y_dst e) al F R3
       ltac:(unfold l3_len46 in R1; destruct (fragmented4 m 0); lia) HU ltac:(apply u16_range; lia) US UD) as (A1 & A2 & A3 & A4 & A5).
    set (o := written46 (y_reset e) (fragmented4 m 0) m 0 hops (Z.of_nat (length al) - 40) (y_src e) (y_dst e) al) in *.
    assert (A3' : skipn (l3_len46 m 0) o = seg) by (unfold seg; rewrite <- R2; unfold l3_len46; destruct (fragmented4 m 0); exact A3).
    assert (LO : length o = (l3_len46 m 0 + length seg)%nat) by lia.
    assert (SIZE : forall o' : list Z, length o' = length o -> Forall (fun o => Z.of_nat (length o) <= y_mtu e /\ (~ df_set m 0 -> Z.of_nat (length o) <= y_lim e)) [o']).
    { intros o' E. constructor; [|constructor]. rewrite E, LO. exact PLN. }
    assert (SENT : forall d1 : list Z, length d1 = length seg -> sent46 [firstn (l3_len46 m 0) o ++ d1] d1).
    { intros d1 L1. assert (LF : length (firstn (l3_len46 m 0) o) = l3_len46 m 0) by (rewrite firstn_length; lia).
      set (o' := firstn (l3_len46 m 0) o ++ d1).
      assert (LO' : length o' = length o) by (unfold o'; rewrite app_length; lia).
      assert (FO : firstn (l3_len46 m 0) o' = firstn (l3_len46 m 0) o) by (unfold o'; rewrite firstn_app_l by lia; rewrite firstn_firstn, Nat.min_id; reflexivity).
      assert (N : forall i, (i < l3_len46 m 0)%nat -> oct o' i = oct o i).
      { intros i Hi. rewrite <- (oct_firstn (l3_len46 m 0) o' i), <- (oct_firstn (l3_len46 m 0) o i), FO by lia. reflexivity. }
      assert (W : forall i, (i + 2 <= l3_len46 m 0)%nat -> word o' i = word o i) by (intros i Hi; unfold word; rewrite !N by lia; reflexivity).
      assert (FI : forall i w, (i + w <= l3_len46 m 0)%nat -> field o' i w = field o i w).
      { intros i w Hi. rewrite <- (field_firstn (l3_len46 m 0) o' i w), <- (field_firstn (l3_len46 m 0) o i w), FO by lia. reflexivity. }
      assert (SK : skipn (l3_len46 m 0) o' = d1) by (unfold o'; rewrite skipn_app, skipn_all2 by lia; rewrite LF, Nat.sub_diag; reflexivity).
      assert (H6 : ipv6_header o' 0 tc (Z.of_nat (length o') - 40) (if fragmented4 m 0 then 44 else proto46 p) hops (y_src e) (y_dst e)).
      { unfold ipv6_header, tclass in *. cbn [Nat.add] in *. rewrite LO', A1. rewrite !N, !W, !FI by lia. rewrite a_p. exact A4. }
      assert (L3E : l3_len46 m 0 = if fragmented4 m 0 then 48%nat else 40%nat) by reflexivity.
      clearbody o'. destruct (fragmented4 m 0) eqn:FG; rewrite L3E in *.
      - specialize (A5 eq_refl).
        assert (H7 : fragment_header o' 40 (proto46 p) (fr4_offset m 0) (fr4_more m 0) (word m 4)).
        { unfold fragment_header, fr_offset, fr_more in *. cbn [Nat.add] in *. rewrite !N, !W by lia. rewrite a_p. exact A5. }
        right. destruct d1 as [|x d1].
        + left. exists o'. cbn [length] in L1. assert (L48 : length o' = 48%nat) by lia. split; [reflexivity|]. split; [pose proof (proj1 (frag4_iff m 0) FG); tauto|].
          split; [exact L48|]. split; [reflexivity|]. split; [rewrite L48 in H6; exact H6|exact H7].
        + right. apply s_last. split; [exact H6|]. split; [exact H7|]. split; [exact SK|discriminate].
      - left. exists o'. split; [reflexivity|]. pose proof (frag4_iff m 0) as FG'. rewrite FG in FG'.
        split; [destruct (Z.eq_dec (fr4_offset m 0) 0); [assumption|exfalso; apply diff_false_true; apply FG'; tauto]|].
        split; [intros MF; apply diff_false_true; apply FG'; tauto|]. split; [exact H6|exact SK]. }
    destruct (first4 m 0) eqn:FB.
    + pose proof (proj1 a_first FB) as FP. rewrite A3'. cbn [map]. rewrite !be32_field by tauto.
      assert (LF : (pay - up <= length seg)%nat) by lia.
      rewrite (a_step seg [] (field m 12 4) (field m 16 4) (y_src e) (y_dst e) FP ltac:(cbn; apply app_nil_r) LF FL).
      destruct (a_l4 FP) as [L6 L8].
      pose proof (seg46_ok (y_le e) (y_sum e) n64 (mf4 m 0) (y_amend e) (y_ports e) (field m 12 4) (field m 16 4) (y_src e) (y_dst e) p seg []
        (pieces_one _ SG) GP) as SO. cbv zeta in SO. cbn [concat] in SO. rewrite app_nil_r in SO.
      specialize (SO ltac:(intros X; specialize (L6 X); lia) ltac:(intros X; specialize (L8 X); lia)).
      specialize (SO ltac:(intros X; unfold seg; rewrite oct_skipn, Nat.add_0_r; exact (FL X))).
      pose proof (UDPN seg [] ltac:(cbn; lia)) as UD'.
      destruct (seg46_of _ _ _ _ _ _ _ _ _ _ _ _ _) as [r|]; cbn [xbind].
      2: { right. right. split; [reflexivity|]. exact (UD' SO). }
      destruct SO as (d1 & -> & S1 & S2 & S3 & S4). rewrite app_nil_r in S3.
      split; [exact X2|]. split; [exact RF|]. split; [constructor; [apply Forall_app; split; [apply firstn_u8; exact A2|exact S2]|constructor]|].
      split; [apply SIZE; rewrite app_length, firstn_length; lia|]. split; [reflexivity|].
      exists d1. split; [apply SENT; exact S1|]. split; [|intros; lia]. intros _. split; [exact S3|]. intros Q1 Q2 _. exact (S4 Q1 Q2 eq_refl).
    + assert (FP : fr4_offset m 0 <> 0) by (intros X; apply a_first in X; congruence).
      split; [exact X2|]. split; [exact RF|]. split; [constructor; [exact A2|constructor]|]. split; [apply SIZE; reflexivity|]. split; [reflexivity|].
      exists seg. split; [|split; [intros; lia|reflexivity]]. pose proof (SENT seg eq_refl) as Q. rewrite <- A3' in Q at 1. rewrite firstn_skipn in Q. exact Q.
  - (* several *)
    cbn [xbind]. destruct PLN as (PM & PM2 & PM3 & PM4). fold seg. assert (MB : 1280 <= mpl < 4294967296) by lia.
    destruct (slow_alloc (y_fresh e) mpl seg FR PM2 ltac:(lia) PM3) as (o0 & next0 & AE & AL).
    pose proof (ext46_spec (y_fuel e) (y_reset e) (y_hairpin e) (y_src e) (y_dst e) l m o0 next0 F ltac:(lia)) as X. rewrite <- AE in X.
    destruct (ttp46_ipv6_external _ _ _ _ _ _ _ _) as [outs|j|j r i|] eqn:EXT; cbn [xbind].
    2: { elim X. }
    2: { destruct X as [(X1 & X2 & X3 & X4)|(X1 & X2 & X3 & X4 & X5 & _)]; [right; left|left; tauto]. split; [exact X1|]. split; [exact X2|]. split; [exact X3|]. apply RT. congruence. }
    2: { exact (X _ RB). }
    clear X. destruct (slow_spec _ _ _ _ _ _ _ _ _ _ _ F FS FR FRU US UD MB PM3 OFF EXT) as (SE & SZ & RR & X2). specialize (RF ltac:(congruence)).
    destruct (slow_shape _ _ _ _ _ _ _ _ _ _ _ F FS FR FRU US UD MB PM3 OFF EXT) as (o & os & -> & NN & LO & CA & EV & UO).
    destruct os as [|o2 os]; [congruence|]. rewrite <- a_p in SE. fold tc hops in SE.
    set (next := o2 :: os) in *.
    assert (SIZE : forall o' : list Z, length o' = length o -> Forall (fun o => Z.of_nat (length o) <= y_mtu e /\ (~ df_set m 0 -> Z.of_nat (length o) <= y_lim e)) (o' :: next)).
    { intros o' E. inversion SZ; subst. constructor; [rewrite E; lia|]. eapply Forall_impl; [|eassumption]. cbv beta. lia. }
    assert (CA' : skipn 48 o ++ concat (map (skipn 48) next) = seg) by exact CA.
    destruct (first4 m 0) eqn:FB.
    + pose proof (proj1 a_first FB) as FP. rewrite a_err_false. change (match next with [] => l3_len46 m 0 | _ => 48%nat end) with 48%nat. rewrite !be32_field by tauto.
      destruct (a_l4 FP) as [L6 L8]. assert (LF : (pay - up <= length (skipn 48 o))%nat).
      { rewrite skipn_length. destruct V. destruct w_packet0 as (_ & _ & _ & T & _). destruct (T FP) as (_ & _ & T3). fold pay up in T3.
        destruct (Z.eq_dec p 6) as [E|E]; [specialize (L6 E); lia|]. destruct (Z.eq_dec p 17) as [E'|E']; [specialize (L8 (or_introl E')); lia|].
        destruct (Z.eq_dec p 1) as [E1|E1]; [specialize (L8 (or_intror E1)); lia|]. specialize (T3 E E' E1). lia. }
      rewrite (a_step _ _ (field m 12 4) (field m 16 4) (y_src e) (y_dst e) FP CA' LF FL).
      assert (PI : Csum_Properties.pieces (skipn 48 o) (map (skipn 48) next)) by (split; [rewrite CA'; exact SG|exact EV]).
      pose proof (seg46_ok (y_le e) (y_sum e) n64 (mf4 m 0) (y_amend e) (y_ports e) (field m 12 4) (field m 16 4) (y_src e) (y_dst e) p _ _ PI GP) as SO. cbv zeta in SO. rewrite CA' in SO.
      specialize (SO ltac:(intros X; specialize (L6 X); lia) ltac:(intros X; specialize (L8 X); lia)).
      assert (OE : p = 1 -> oct (skipn 48 o) 0 = 8 \/ oct (skipn 48 o) 0 = 0).
      { intros X. specialize (L8 (or_intror X)). replace (oct (skipn 48 o) 0) with (oct seg 0) by (rewrite <- CA'; unfold oct; rewrite app_nth1 by lia; reflexivity).
        unfold seg. rewrite oct_skipn, Nat.add_0_r. exact (FL X). }
      specialize (SO OE).
      pose proof (UDPN (skipn 48 o) (map (skipn 48) next) ltac:(rewrite <- CA', app_length; reflexivity)) as UD'.
      destruct (seg46_of _ _ _ _ _ _ _ _ _ _ _ _ _) as [r|]; cbn [xbind].
      2: { right. right. split; [reflexivity|]. exact (UD' SO). }
      destruct SO as (d1 & -> & S1 & S2 & S3 & _).
      assert (LO' : length (firstn 48 o ++ d1) = length o) by (rewrite app_length, firstn_length, S1, skipn_length; lia).
      split; [exact X2|]. split; [exact RF|]. split; [inversion UO; subst; constructor; [apply Forall_app; split; [apply firstn_u8; assumption|exact S2]|assumption]|].
      split; [apply SIZE; exact LO'|]. split; [intros D; elim (PM4 D)|].
      exists (d1 ++ concat (map (skipn 48) next)). split.
      { right. right. eapply series_head; [exact SE|symmetry; exact CA'|exact S1|lia]. }
      split; [|intros; lia]. intros _. split; [exact S3|]. intros _ _ Q. discriminate Q.
    + assert (FP : fr4_offset m 0 <> 0) by (intros X; apply a_first in X; congruence).
      split; [exact X2|]. split; [exact RF|]. split; [exact UO|]. split; [apply SIZE; reflexivity|]. split; [intros D; elim (PM4 D)|].
      exists seg. split; [right; right; exact SE|]. split; [intros; lia|reflexivity].
Qed.
End out46.
