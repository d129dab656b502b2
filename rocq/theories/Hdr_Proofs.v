(** Lemmas about the translated headers. *)
Require Import Verif.Base Verif.Pool4_Model Verif.Rtrie_Model Verif.Nat64_Model Verif.Csum_Model Verif.Pkt_Model Verif.Hdr_Model.
Require Import Verif.Csum_Spec Verif.Pkt_Spec Verif.Hdr_Spec Verif.Csum_Proofs Verif.Pkt_Proofs.
Local Ltac Zify.zify_post_hook ::= Z.div_mod_to_equations.

(** ** Octets *)

Lemma octets2 v : octets 2 v = [octet 2 v 0; octet 2 v 1]. Proof. reflexivity. Qed.
Lemma octets4 v : octets 4 v = [octet 4 v 0; octet 4 v 1; octet 4 v 2; octet 4 v 3]. Proof. reflexivity. Qed.
Lemma octets16 v : octets 16 v = [octet 16 v 0; octet 16 v 1; octet 16 v 2; octet 16 v 3; octet 16 v 4; octet 16 v 5;
  octet 16 v 6; octet 16 v 7; octet 16 v 8; octet 16 v 9; octet 16 v 10; octet 16 v 11; octet 16 v 12; octet 16 v 13;
  octet 16 v 14; octet 16 v 15].
Proof. reflexivity. Qed.
Lemma octet2_hi v : octet 2 v 0 = (v / 256) mod 256. Proof. reflexivity. Qed.
Lemma octet2_lo v : octet 2 v 1 = v mod 256.
Proof. unfold octet. change (2 ^ (8 * (Z.of_nat 2 - 1 - Z.of_nat 1))) with 1. rewrite Z.div_1_r. reflexivity. Qed.
Lemma octet2_word v : 256 * octet 2 v 0 + octet 2 v 1 = v mod 65536.
Proof. rewrite octet2_hi, octet2_lo. change 65536 with (256 * 256). rewrite Z.rem_mul_r by lia. lia. Qed.
Lemma octet4_word v : 65536 * (256 * octet 4 v 0 + octet 4 v 1) + (256 * octet 4 v 2 + octet 4 v 3) = v mod 4294967296.
Proof.
  pose proof (be_of_octets_aux 4 0 v) as H. cbn [Nat.add] in H.
  change (map (octet 4 v) (seq 0 4)) with [octet 4 v 0; octet 4 v 1; octet 4 v 2; octet 4 v 3] in H.
  change (256 ^ Z.of_nat 4) with 4294967296 in H. rewrite <- H. unfold be_of. cbn [fold_left]. ring.
Qed.
Lemma is_u8_octet n v i : is_u8 (octet n v i). Proof. apply octet_is_u8. Qed.
Lemma u8_range x : is_u8 x <-> 0 <= x < 256. Proof. reflexivity. Qed.
Lemma u16_range x : is_u16 x <-> 0 <= x < 65536. Proof. reflexivity. Qed.
Lemma u32_range x : is_u32 x <-> 0 <= x < 4294967296. Proof. reflexivity. Qed.
Lemma u16_mod x : u16 x = x mod 65536. Proof. reflexivity. Qed.
Lemma u32_mod x : u32 x = x mod 4294967296. Proof. reflexivity. Qed.

(** ** ICMP types *)

Ltac eqb_cases :=
  repeat match goal with
  | |- context[?a =? ?b] => let E := fresh "E" in destruct (a =? b) eqn:E; [apply Z.eqb_eq in E; subst|apply Z.eqb_neq in E]; cbn [andb orb negb]
  end.

(* A list of rules, applied. *)
Fixpoint applied (rs : list rule) (t c : Z) : option (Z * Z) :=
  match rs with
  | [] => None
  | (t0, lo, hi, t', n) :: rs =>
      if (t =? t0) && (lo <=? c) && (c <=? hi) then Some (t', match n with Some x => x | None => c end) else applied rs t c
  end.
(* The rules do not overlap, so the order does not matter. *)
Fixpoint disjoint_from (t lo hi : Z) (rs : list rule) : bool :=
  match rs with
  | [] => true
  | (t0, lo0, hi0, _, _) :: rs => (negb (t =? t0) || (hi <? lo0) || (hi0 <? lo)) && disjoint_from t lo hi rs
  end.
Fixpoint disjoint (rs : list rule) : bool :=
  match rs with [] => true | (t, lo, hi, _, _) :: rs => disjoint_from t lo hi rs && disjoint rs end.
Lemma disjoint_from_none t lo hi rs : disjoint_from t lo hi rs = true ->
  forall c lo0 hi0 t' n, lo <= c <= hi -> In (t, lo0, hi0, t', n) rs -> ~ lo0 <= c <= hi0.
Proof.
  induction rs as [|[[[[t0 l0] h0] t1] n1] rs IH]; cbn [disjoint_from In]; intros D c lo0 hi0 t' n C I; [tauto|].
  apply andb_true_iff in D. destruct D as [D1 D2]. destruct I as [I|I]; [inversion I; subst; lia|eauto].
Qed.
Lemma applied_becomes rs t c t' c' : disjoint rs = true -> (applied rs t c = Some (t', c') <-> becomes rs t c t' c').
Proof.
  unfold becomes. induction rs as [|[[[[t0 lo] hi] t1] n] rs IH]; cbn [applied disjoint]; intros D.
  - split; [discriminate|intros (? & ? & ? & [] & _)].
  - apply andb_true_iff in D. destruct D as [D1 D2]. specialize (IH D2).
    destruct ((t =? t0) && (lo <=? c) && (c <=? hi)) eqn:E.
    + assert (t = t0 /\ lo <= c <= hi) as [-> R] by lia. split.
      * intros H. inversion H; subst. exists lo, hi, n. cbn [In]. tauto.
      * intros (lo' & hi' & n' & I & R' & ->). cbn [In] in I. destruct I as [I|I]; [inversion I; subst; reflexivity|].
        destruct (disjoint_from_none _ _ _ _ D1 _ _ _ _ _ R I R').
    + rewrite IH. split; intros (lo' & hi' & n' & I & R' & ->).
      * exists lo', hi', n'. cbn [In]. tauto.
      * cbn [In] in I. destruct I as [I|I]; [inversion I; subst; lia|]. exists lo', hi', n'. tauto.
Qed.
Lemma applied_none rs t c : disjoint rs = true -> (applied rs t c = None <-> forall t' c', ~ becomes rs t c t' c').
Proof.
  intros D. destruct (applied rs t c) as [[t' c']|] eqn:A.
  - split; [discriminate|]. intros H. apply applied_becomes in A; [|assumption]. destruct (H _ _ A).
  - split; [|reflexivity]. intros _ t' c' B. apply applied_becomes in B; [|assumption]. congruence.
Qed.
Lemma disjoint46 : disjoint rules46 = true. Proof. reflexivity. Qed.
Lemma disjoint64 : disjoint rules64 = true. Proof. reflexivity. Qed.

Ltac bools := repeat match goal with
  | |- context[if ?b then _ else _] => let E := fresh "E" in destruct b eqn:E
  end.

Lemma type64_applied t c : is_u8 t -> is_u8 c ->
  xlat64_icmp_type t c = match applied rules64 t c with Some x => XOk x | None => XDrop J_UNKNOWN_ICMP6_TYPE end.
Proof.
  unfold is_u8. change (2^8) with 256. intros T C. unfold xlat64_icmp_type, rules64. cbn [applied].
  destruct (t =? 128) eqn:E1; [replace (((0 <=? c) && (c <=? 255))%bool) with true by lia; rewrite <- ?andb_assoc; replace ((0 <=? c) && (c <=? 255)) with true by lia; reflexivity|cbn [andb]].
  destruct (t =? 129) eqn:E2; [rewrite <- ?andb_assoc; replace ((0 <=? c) && (c <=? 255)) with true by lia; reflexivity|cbn [andb]].
  destruct (t =? 1) eqn:E3.
  - apply Z.eqb_eq in E3. subst t. cbn [andb]. change (1 =? 2) with false. change (1 =? 3) with false. change (1 =? 4) with false. cbn [andb].
    bools; try reflexivity; lia.
  - cbn [andb]. destruct (t =? 2) eqn:E4; [rewrite <- ?andb_assoc; replace ((0 <=? c) && (c <=? 255)) with true by lia; reflexivity|cbn [andb]].
    destruct (t =? 3) eqn:E5; [rewrite <- ?andb_assoc; replace ((0 <=? c) && (c <=? 255)) with true by lia; reflexivity|cbn [andb]].
    destruct (t =? 4) eqn:E6; cbn [andb]; [|reflexivity]. bools; try reflexivity; lia.
Qed.
Lemma type46_applied t c : is_u8 t -> is_u8 c ->
  xlat46_icmp_type t c = match applied rules46 t c with Some x => XOk x | None => XDrop J_UNKNOWN_ICMP4_TYPE end.
Proof.
  unfold is_u8. change (2^8) with 256. intros T C. unfold xlat46_icmp_type, rules46. cbn [applied].
  destruct (t =? 8) eqn:E1; [rewrite <- ?andb_assoc; replace ((0 <=? c) && (c <=? 255)) with true by lia; reflexivity|cbn [andb]].
  destruct (t =? 0) eqn:E2; [rewrite <- ?andb_assoc; replace ((0 <=? c) && (c <=? 255)) with true by lia; reflexivity|cbn [andb]].
  destruct (t =? 3) eqn:E3.
  - apply Z.eqb_eq in E3. subst t. cbn [andb]. change (3 =? 11) with false. change (3 =? 12) with false. cbn [andb].
    bools; try reflexivity; lia.
  - cbn [andb]. destruct (t =? 11) eqn:E4; [rewrite <- ?andb_assoc; replace ((0 <=? c) && (c <=? 255)) with true by lia; reflexivity|cbn [andb]].
    destruct (t =? 12) eqn:E5; cbn [andb]; [|reflexivity]. bools; try reflexivity; lia.
Qed.

(** ** Pointers *)

Lemma ptr64_spec p : 0 <= p ->
  match icmp6_to_icmp4_param_prob_ptr p with
  | XOk x => points pointers64 p x /\ 0 <= x < 256
  | XDrop _ => forall x, ~ points pointers64 p x
  | _ => False
  end.
Proof.
  intros P. unfold icmp6_to_icmp4_param_prob_ptr, points, pointers64.
  bools; try (split; [eexists _, _; split; [cbn [In]; eauto 12|lia]|lia]);
  intros x (lo & hi & I & R); cbn [In] in I;
  repeat match goal with H : _ \/ _ |- _ => destruct H as [H|H] end; try contradiction; inversion I; subst; lia.
Qed.
Lemma ptr46_spec code p : code = 0 \/ code = 2 -> 0 <= p < 256 ->
  match icmp4_to_icmp6_param_prob code p with
  | XOk x => points pointers46 p x /\ 0 <= x < 256
  | XDrop _ => forall x, ~ points pointers46 p x
  | _ => False
  end.
Proof.
  intros C P. unfold icmp4_to_icmp6_param_prob. replace ((code =? 0) || (code =? 2)) with true by lia.
  destruct (19 <? p) eqn:E; cbn [orb].
  - intros x (lo & hi & I & R). unfold pointers46 in I. cbn [In] in I.
    repeat match goal with H : _ \/ _ |- _ => destruct H as [H|H] end; try contradiction; inversion I; subst; lia.
  - assert (Q : In p [0;1;2;3;4;5;6;7;8;9;10;11;12;13;14;15;16;17;18;19]) by (cbn [In]; lia).
    unfold points, pointers46. cbn [In] in Q.
    repeat match goal with H : _ \/ _ |- _ => destruct H as [H|H] end; try contradiction; subst p;
    match goal with |- match ?e with _ => _ end => let v := eval vm_compute in e in change e with v end; cbv iota;
    try (split; [eexists _, _; split; [cbn [In]; eauto 12|lia]|lia]);
    intros x (lo & hi & I & R); cbn [In] in I; repeat match goal with H : _ \/ _ |- _ => destruct H as [H|H] end; try contradiction; inversion I; subst; lia.
Qed.

(** ** Explicit octets *)

Lemma split8 (l : list Z) : length l = 8%nat -> exists a b c d e f g h, l = [a; b; c; d; e; f; g; h].
Proof.
  intros L. do 8 (destruct l as [|? l]; [discriminate L|]). destruct l; [|discriminate L]. do 8 eexists. reflexivity.
Qed.
Ltac computes := cbn [put firstn skipn app length Nat.add nth fst snd].
Ltac u8s := repeat match goal with
  | |- Forall _ [] => constructor
  | |- Forall _ (_ :: _) => constructor
  end; try assumption; try apply is_u8_octet.
Lemma oct_at (l : list Z) i : oct l i = nth i l 0. Proof. reflexivity. Qed.

(** The ICMPv4 header made from an ICMPv6 one *)
Ltac no := intros; exfalso; cbn [In] in *; lia.
Lemma icmp64_spec id im om h out : length h = 8%nat -> length out = 8%nat -> Forall is_u8 h ->
  match id with Some i => is_u16 i | None => True end ->
  match icmp64_header id im om h out with
  | XOk o => length o = 8%nat /\ Forall is_u8 o /\ becomes rules64 (oct h 0) (oct h 1) (oct o 0) (oct o 1) /\ word o 2 = word h 2
      /\ (is_echo h -> word o 4 = match id with Some i => i | None => word h 4 end /\ word o 6 = word h 6)
      /\ (oct h 0 = 2 -> word o 4 = 0 /\ word o 6 = compute_mtu4 (rest h) im om)
      /\ (oct h 0 = 4 -> oct h 1 = 0 -> points pointers64 (rest h) (oct o 4) /\ oct o 5 = 0 /\ word o 6 = 0)
      /\ (In (oct h 0) [1; 3] \/ oct h 0 = 4 /\ oct h 1 = 1 -> rest o = 0)
  | XDrop _ => (forall t c, ~ becomes rules64 (oct h 0) (oct h 1) t c)
      \/ (oct h 0 = 4 /\ oct h 1 = 0 /\ forall p, ~ points pointers64 (rest h) p)
  | _ => False
  end.
Proof.
  intros L1 L2 F I. destruct (split8 _ L1) as (h0 & h1 & h2 & h3 & h4 & h5 & h6 & h7 & ->).
  destruct (split8 _ L2) as (o0 & o1 & o2 & o3 & o4 & o5 & o6 & o7 & ->). clear L1 L2.
  repeat match goal with H : Forall _ (_ :: _) |- _ => inversion H; clear H; subst end.
  unfold icmp64_header, byte. cbn [nth]. change (oct [h0; h1; h2; h3; h4; h5; h6; h7] 0) with h0.
  change (oct [h0; h1; h2; h3; h4; h5; h6; h7] 1) with h1.
  assert (R : be32 [h0; h1; h2; h3; h4; h5; h6; h7] 4 = rest [h0; h1; h2; h3; h4; h5; h6; h7]) by reflexivity.
  assert (Rn : 0 <= rest [h0; h1; h2; h3; h4; h5; h6; h7]).
  { unfold rest, word, oct. cbn [nth Nat.add]. unfold is_u8 in *. lia. }
  rewrite type64_applied by assumption. destruct (applied rules64 h0 h1) as [[t c]|] eqn:A; cbn [xbind].
  2:{ left. exact (proj1 (applied_none _ _ _ disjoint64) A). }
  apply applied_becomes in A; [|reflexivity].
  assert (T : is_u8 t /\ is_u8 c /\ (h0 = 4 -> h1 = 0 \/ h1 = 1) /\ In h0 [128; 129; 1; 2; 3; 4]).
  { destruct A as (lo & hi & n & J & RR & ->). unfold rules64 in J. cbn [In] in J. unfold is_u8 in *. change (2^8) with 256 in *. cbn [In].
    repeat match goal with H : _ \/ _ |- _ => destruct H as [H|H] end; try contradiction; inversion J; subst; cbv iota; lia. }
  destruct T as (T1 & T2 & T3 & T4). computes.
  destruct ((h0 =? 128) || (h0 =? 129)) eqn:E.
  { assert (NE : h0 <> 2 /\ h0 <> 4 /\ h0 <> 1 /\ h0 <> 3) by lia.
    destruct id as [i|]; rewrite ?octets2; computes;
    (split; [reflexivity|]; split; [u8s|]; split; [exact A|]; split; [reflexivity|]; split; [|split; [no|split; [no|no]]]).
    - intros _. unfold word, oct. cbn [nth Nat.add]. rewrite octet2_word. unfold is_u16 in I; change (2^16) with 65536 in I; split; [apply Z.mod_small; exact I|reflexivity].
    - intros _. split; reflexivity. }
  assert (NE : ~ is_echo [h0; h1; h2; h3; h4; h5; h6; h7]).
  { unfold is_echo, oct. cbn [nth]. intros J. cbn [In] in J, T4. lia. }
  destruct ((h0 =? 1) || (h0 =? 3)) eqn:E1.
  { split; [reflexivity|]. split; [u8s; apply u8_0|]. split; [exact A|]. split; [reflexivity|]. split; [tauto|]. split; [no|]. split; [no|reflexivity]. }
  destruct (h0 =? 2) eqn:E2.
  { apply Z.eqb_eq in E2. rewrite octets2. computes. split; [reflexivity|]. split; [u8s; apply u8_0|]. split; [exact A|].
    split; [reflexivity|]. split; [tauto|]. split; [|split; [no|no]].
    intros _. split; [reflexivity|]. unfold word, oct. cbn [nth Nat.add]. rewrite octet2_word, R.
    unfold compute_mtu4. rewrite u16_mod. rewrite Z.mod_mod by lia. reflexivity. }
  destruct (h0 =? 4) eqn:E3; [|cbn [In] in T4; lia]. apply Z.eqb_eq in E3. specialize (T3 E3).
  destruct (h1 =? 0) eqn:E4.
  - apply Z.eqb_eq in E4. rewrite R. pose proof (ptr64_spec _ Rn) as P.
    destruct (icmp6_to_icmp4_param_prob_ptr (rest [h0; h1; h2; h3; h4; h5; h6; h7])) as [x|j|j e i|]; try contradiction; cbn [xbind].
    + destruct P as [P1 P2]. rewrite octets4. computes. split; [reflexivity|]. split; [u8s|]. split; [exact A|].
      split; [reflexivity|]. split; [tauto|]. split; [no|].
      assert (V : octet 4 (u32 (x * 16777216)) 0 = x /\ octet 4 (u32 (x * 16777216)) 1 = 0 /\ octet 4 (u32 (x * 16777216)) 2 = 0 /\ octet 4 (u32 (x * 16777216)) 3 = 0).
      { rewrite u32_mod, Z.mod_small by lia. unfold octet.
        change (2 ^ (8 * (Z.of_nat 4 - 1 - Z.of_nat 0))) with 16777216. change (2 ^ (8 * (Z.of_nat 4 - 1 - Z.of_nat 1))) with 65536.
        change (2 ^ (8 * (Z.of_nat 4 - 1 - Z.of_nat 2))) with 256. change (2 ^ (8 * (Z.of_nat 4 - 1 - Z.of_nat 3))) with 1. lia. }
      destruct V as (V0 & V1 & V2 & V3). rewrite V0, V1, V2, V3.
      split; [intros _ _; split; [exact P1|split; reflexivity]|no].
    + right. tauto.
  - destruct (h1 =? 1) eqn:E5; [|lia]. split; [reflexivity|]. split; [u8s; apply u8_0|]. split; [exact A|]. split; [reflexivity|]. split; [tauto|].
    split; [no|]. split; [no|reflexivity].
Qed.

Lemma rest_octets4 a b c d v : 0 <= v < 4294967296 -> rest ([a; b; c; d] ++ octets 4 v) = v.
Proof. intros V. unfold rest, word, oct. rewrite octets4. cbn [nth Nat.add app]. rewrite octet4_word. apply Z.mod_small. exact V. Qed.

(** The ICMPv6 header made from an ICMPv4 one *)
Lemma icmp46_spec id ps im om tl h out : length h = 8%nat -> length out = 8%nat -> Forall is_u8 h ->
  match id with Some i => is_u16 i | None => True end ->
  match icmp46_header id ps im om tl h out with
  | XOk o => length o = 8%nat /\ Forall is_u8 o /\ becomes rules46 (oct h 0) (oct h 1) (oct o 0) (oct o 1) /\ word o 2 = word h 2
      /\ (is_echo h -> word o 4 = match id with Some i => i | None => word h 4 end /\ word o 6 = word h 6)
      /\ (oct h 0 = 3 -> oct h 1 = 4 -> rest o = u32 (compute_mtu6 ps (word h 6) im om tl))
      /\ (oct h 0 = 3 -> oct h 1 = 2 -> rest o = 6)
      /\ (oct h 0 = 12 -> points pointers46 (oct h 4) (rest o))
      /\ (oct h 0 = 11 \/ oct h 0 = 3 /\ oct h 1 <> 2 /\ oct h 1 <> 4 -> rest o = 0)
  | XDrop _ => (forall t c, ~ becomes rules46 (oct h 0) (oct h 1) t c)
      \/ (oct h 0 = 12 /\ forall p, ~ points pointers46 (oct h 4) p)
  | _ => False
  end.
Proof.
  intros L1 L2 F I. destruct (split8 _ L1) as (h0 & h1 & h2 & h3 & h4 & h5 & h6 & h7 & ->).
  destruct (split8 _ L2) as (o0 & o1 & o2 & o3 & o4 & o5 & o6 & o7 & ->). clear L1 L2.
  repeat match goal with H : Forall _ (_ :: _) |- _ => inversion H; clear H; subst end.
  unfold icmp46_header, byte. cbn [nth]. change (oct [h0; h1; h2; h3; h4; h5; h6; h7] 0) with h0.
  change (oct [h0; h1; h2; h3; h4; h5; h6; h7] 1) with h1. change (oct [h0; h1; h2; h3; h4; h5; h6; h7] 4) with h4.
  assert (R : be16 [h0; h1; h2; h3; h4; h5; h6; h7] 6 = word [h0; h1; h2; h3; h4; h5; h6; h7] 6) by reflexivity.
  rewrite type46_applied by assumption. destruct (applied rules46 h0 h1) as [[t c]|] eqn:A; cbn [xbind].
  2:{ left. exact (proj1 (applied_none _ _ _ disjoint46) A). }
  apply applied_becomes in A; [|reflexivity].
  assert (T : is_u8 t /\ is_u8 c /\ (h0 = 12 -> h1 = 0 \/ h1 = 2) /\ In h0 [8; 0; 3; 11; 12]).
  { destruct A as (lo & hi & n & J & RR & ->). unfold rules46 in J. cbn [In] in J. unfold is_u8 in *. change (2^8) with 256 in *. cbn [In].
    repeat match goal with H : _ \/ _ |- _ => destruct H as [H|H] end; try contradiction; inversion J; subst; cbv iota; lia. }
  destruct T as (T1 & T2 & T3 & T4). computes.
  destruct ((h0 =? 8) || (h0 =? 0)) eqn:E.
  { destruct id as [i|]; rewrite ?octets2; computes;
    (split; [reflexivity|]; split; [u8s|]; split; [exact A|]; split; [reflexivity|]; split; [|split; [no|split; [no|split; no]]]).
    - intros _. unfold word, oct. cbn [nth Nat.add]. rewrite octet2_word. unfold is_u16 in I; change (2^16) with 65536 in I; split; [apply Z.mod_small; exact I|reflexivity].
    - intros _. split; reflexivity. }
  assert (NE : ~ is_echo [h0; h1; h2; h3; h4; h5; h6; h7]).
  { unfold is_echo, oct. cbn [nth]. intros J. cbn [In] in J, T4. lia. }
  destruct (h0 =? 3) eqn:E1.
  { apply Z.eqb_eq in E1. destruct (h1 =? 2) eqn:E2.
    - apply Z.eqb_eq in E2. rewrite octets4. computes.
      split; [reflexivity|]. split; [u8s|]. split; [exact A|]. split; [reflexivity|]. split; [tauto|].
      split; [no|]. split; [reflexivity|]. split; no.
    - destruct (h1 =? 4) eqn:E3.
      + rewrite octets4. computes. split; [reflexivity|]. split; [u8s|]. split; [exact A|]. split; [reflexivity|]. split; [tauto|].
        split; [|split; [no|split; no]]. intros _ _. rewrite R. unfold rest. unfold word at 1 2. unfold oct. cbn [nth Nat.add]. rewrite octet4_word. reflexivity.
      + split; [reflexivity|]. split; [u8s; apply u8_0|]. split; [exact A|]. split; [reflexivity|]. split; [tauto|].
        split; [no|]. split; [no|]. split; [no|reflexivity]. }
  destruct (h0 =? 11) eqn:E2.
  { split; [reflexivity|]. split; [u8s; apply u8_0|]. split; [exact A|]. split; [reflexivity|]. split; [tauto|].
    split; [no|]. split; [no|]. split; [no|reflexivity]. }
  destruct (h0 =? 12) eqn:E3; [|cbn [In] in T4; lia]. apply Z.eqb_eq in E3. specialize (T3 E3).
  assert (B4 : 0 <= h4 < 256) by (apply u8_range; assumption).
  pose proof (ptr46_spec h1 h4 T3 B4) as P. destruct (icmp4_to_icmp6_param_prob h1 h4) as [x|j|j e i|]; try contradiction; cbn [xbind].
  - destruct P as [P1 P2]. pose proof (rest_octets4 t c h2 h3 x ltac:(lia)) as RO. rewrite octets4 in *. computes. cbn [app] in RO.
    split; [reflexivity|]. split; [u8s|]. split; [exact A|]. split; [reflexivity|]. split; [tauto|].
    split; [no|]. split; [no|]. split; [|no]. intros _. rewrite RO. exact P1.
  - right. tauto.
Qed.

(** ** IPv4 headers *)

Ltac take k l := do k (destruct l as [|? l]; [cbn [length] in *; lia|]).

Lemma two_u8 a b : is_u8 a -> is_u8 b -> Forall is_u8 [a; b].
Proof. intros A B. constructor; [exact A|constructor; [exact B|constructor]]. Qed.
Lemma ip_csum_ok le out : Forall is_u8 out -> (20 <= length out)%nat ->
  exists a b, ip_fast_csum le out = put 10 [a; b] out /\ is_u8 a /\ is_u8 b /\ checks (firstn 20 (put 10 [a; b] out)).
Proof.
  intros F L. unfold ip_fast_csum. cbv zeta. set (z := put 10 [0; 0] out).
  assert (Fz : Forall is_u8 (firstn 20 z)).
  { apply Forall_forall. intros x X. apply In_nth with (d := 0) in X. destruct X as (n & N & <-).
    assert (LZ : length z = length out) by (apply put_length; cbn [length]; lia).
    rewrite firstn_length, LZ in N. rewrite nth_firstn_lt by lia.
    assert (G : Forall is_u8 z) by (apply put_u8; [apply two_u8; apply u8_0|assumption]).
    rewrite Forall_forall in G. apply G. apply nth_In. lia. }
  destruct (csum_partial_spec le (firstn 20 z) 0 Fz u32_0) as (U & [k K] & Z0).
  pose proof (csum_fold_u16 _ U) as UF. destruct (csum_fold_cong _ U) as [k1 K1]. pose proof (csum_fold_ffff _ U) as FF.
  destruct (st16_form le (csum_fold (csum_partial le (firstn 20 z) 0))) as (a & b & SF & LD & SU). specialize (SU UF).
  exists a, b. rewrite SF. unfold z. rewrite put_put by (cbn [length]; lia). split; [reflexivity|]. split; [tauto|]. split; [tauto|].
  assert (Fo : Forall is_u8 (put 10 [a; b] out)) by (apply put_u8; [apply two_u8; tauto|assumption]).
  rewrite firstn_put by (cbn [length]; lia).
  assert (F20 : Forall is_u8 (firstn 20 out)) by (rewrite <- (firstn_skipn 20 out) in F; apply Forall_app in F; tauto).
  apply (checks_hs le); [apply put_u8; [apply two_u8; tauto|assumption]|].
  rewrite hs_put by (try reflexivity; rewrite firstn_length; lia).
  assert (HZ : hs le (firstn 20 z) = hs le (firstn 20 out) - get16 le 10 (firstn 20 out) + 0).
  { unfold z. rewrite firstn_put by (cbn [length]; lia). rewrite hs_put by (try reflexivity; rewrite firstn_length; lia).
    replace (ld16 le 0 0) with 0 by (destruct le; reflexivity). reflexivity. }
  pose proof (hs_nonneg le _ Fz) as N. rewrite LD. unfold is_u16 in UF. split.
  - intros Z1. assert (hs le (firstn 20 z) = 0) by lia. assert (csum_partial le (firstn 20 z) 0 = 0) by tauto. lia.
  - apply cong0. exists (k1 - k). lia.
Qed.

(** Twenty octets written as an IPv4 header are one. *)
Lemma header4_written le tos len id fr ttl proto src dst out :
  Forall is_u8 out -> (20 <= length out)%nat -> is_u8 tos -> is_u16 len -> is_u16 id -> is_u16 fr -> is_u8 ttl -> is_u8 proto -> is_u32 src -> is_u32 dst ->
  let o := ip_fast_csum le (put 16 (octets 4 dst) (put 12 (octets 4 src) (put 9 [proto] (put 8 [ttl] (put 6 (octets 2 fr)
           (put 4 (octets 2 id) (put 2 (octets 2 len) (put 1 [tos] (put 0 [69] out))))))))) in
  length o = length out /\ Forall is_u8 o /\ skipn 20 o = skipn 20 out
  /\ (forall df more off, (fr / 32768 = 0) -> ((fr / 16384) mod 2 = 1 <-> df) -> ((fr / 8192) mod 2 = 1 <-> more) -> 8 * (fr mod 8192) = off ->
      ipv4_header o 0 tos len id df more off ttl proto src dst).
Proof.
  intros F L T Le Id Fr Ttl Pr Sr Ds o.
  assert (E : exists a b, o = [69; tos; octet 2 len 0; octet 2 len 1; octet 2 id 0; octet 2 id 1; octet 2 fr 0; octet 2 fr 1; ttl; proto; a; b;
      octet 4 src 0; octet 4 src 1; octet 4 src 2; octet 4 src 3; octet 4 dst 0; octet 4 dst 1; octet 4 dst 2; octet 4 dst 3] ++ skipn 20 out
      /\ is_u8 a /\ is_u8 b /\ checks (firstn 20 o)).
  { unfold o. clear o. rewrite !octets2, !octets4. do 20 (destruct out as [|? out]; [exfalso; cbn [length] in L; clear - L; lia|]). computes.
    match goal with |- context[ip_fast_csum le ?w] => set (w0 := w) end.
    assert (Fw : Forall is_u8 w0).
    { unfold w0. repeat match goal with H : Forall _ (_ :: _) |- _ => inversion H; clear H; subst end. u8s; red; change (2^8) with 256; clear; lia. }
    destruct (ip_csum_ok le w0 Fw) as (a & b & E & A & B & C); [unfold w0; cbn [length]; lia|].
    exists a, b. rewrite E. split; [|split; [exact A|split; [exact B|exact C]]]. reflexivity. }
  clearbody o. destruct E as (a & b & -> & A & B & C).
  pose proof (octet2_word len) as W1. pose proof (octet2_word id) as W2. pose proof (octet2_word fr) as W3.
  rewrite Z.mod_small in W1 by (apply u16_range; assumption). rewrite Z.mod_small in W2 by (apply u16_range; assumption).
  rewrite Z.mod_small in W3 by (apply u16_range; assumption).
  split; [|split; [|split]].
  - rewrite app_length, skipn_length. cbn [length]. lia.
  - apply Forall_app. split; [u8s; red; change (2^8) with 256; lia|].
    rewrite <- (firstn_skipn 20 out) in F. apply Forall_app in F. tauto.
  - reflexivity.
  - intros df more off R0 D M O. unfold ipv4_header, df_set, fr4_more, fr4_offset, field, word, oct. cbn [Nat.add nth app]. rewrite W1, W2, W3.
    change (nth 0 _ 0) with 69. split; [reflexivity|]. split; [reflexivity|]. split; [reflexivity|]. split; [reflexivity|].
    split; [exact R0|]. split; [exact D|]. split; [exact M|]. split; [exact O|]. split; [reflexivity|]. split; [reflexivity|].
    split; [apply (be_of_octets 4 src); exact Sr|]. split; [apply (be_of_octets 4 dst); exact Ds|exact C].
Qed.

Lemma chain_u8 m nh off hs p up : Forall is_u8 m -> chain m nh off hs p up -> is_u8 nh -> is_u8 p.
Proof.
  intros F. induction 1 as [nh off H | nh off hs p up H1 H2 H3 IH | off p H1 H2 H3]; intros N; [exact N| |].
  - apply IH. apply oct_u8. exact F.
  - subst p. apply oct_u8. exact F.
Qed.
Lemma tclass_get m h : Forall is_u8 m -> get_traffic_class m h = tclass m h.
Proof.
  intros F. unfold get_traffic_class, tclass, word, byte. pose proof (oct_u8 m h F) as A. pose proof (oct_u8 m (h + 1) F) as B.
  unfold is_u8, oct in *. change (2^8) with 256 in *. lia.
Qed.
Lemma tclass_u8 m h : is_u8 (tclass m h).
Proof. unfold tclass, is_u8. change (2^8) with 256. apply Z.mod_pos_bound. lia. Qed.
Lemma word_u16 m o : Forall is_u8 m -> is_u16 (word m o).
Proof.
  intros F. unfold word. pose proof (oct_u8 m o F) as A. pose proof (oct_u8 m (o + 1) F) as B.
  unfold is_u8, is_u16 in *. change (2^8) with 256 in *. change (2^16) with 65536. lia.
Qed.
Lemma proto64_u8 p : is_u8 p -> is_u8 (proto64 p).
Proof. unfold proto64, is_u8. change (2^8) with 256. destruct (p =? 58); lia. Qed.
Lemma segments_left_spec lin m h hs p up : (lin <= length m)%nat -> chain m (oct m (h + 6)) (h + 40) hs p up -> (up <= lin)%nat ->
  segments_left lin m h = Ok (match where_is 43 hs with
    | Some r => if oct m (r + 3) =? 0 then None else Some (r - h + 3)%nat | None => None end).
Proof.
  intros LL C U. unfold segments_left. rewrite (hdr_find lin m h hs p up 43 LL ltac:(cbn; tauto) C U). cbn [bind].
  destruct (where_is 43 hs) as [r|] eqn:W; [|reflexivity]. apply where_In in W. apply (chain_hdr _ _ _ _ _ _ C) in W.
  unfold direct. replace (r + 3 + 1 <=? lin)%nat with true by (symmetry; apply Nat.leb_le; lia). cbn [bind]. unfold byte, oct.
  destruct (nth (r + 3) m 0 =? 0); reflexivity.
Qed.
Lemma frag_field_u16 df mf off : 0 <= off < 65536 ->
  let fr := 16384 * (if df : bool then 1 else 0) + 8192 * (if mf : bool then 1 else 0) + off / 8 in
  is_u16 fr /\ fr / 32768 = 0 /\ ((fr / 16384) mod 2 = 1 <-> df = true) /\ ((fr / 8192) mod 2 = 1 <-> mf = true) /\ 8 * (fr mod 8192) = off - off mod 8.
Proof. intros O fr. subst fr. unfold is_u16. change (2^16) with 65536. destruct df, mf; lia. Qed.

Definition fr_value (m : list Z) (f : option nat) (df : bool) : Z :=
  match f with
  | Some f => 16384 * 0 + 8192 * (if mf6 m f then 1 else 0) + frag_off6 m f / 8
  | None => 16384 * (if df then 1 else 0) + 8192 * 0 + 0 / 8
  end.
Lemma xlat_frag_off_val m f df : xlat_frag_off m f df = octets 2 (fr_value m f df).
Proof. destruct f; reflexivity. Qed.
Lemma fr_value_spec m hs off h p up nh df : Forall is_u8 m -> chain m nh off hs p up -> (1 <= off)%nat -> h = fh_of hs ->
  let fr := fr_value m (frag_ptr 0 h) df in
  is_u16 fr /\ fr / 32768 = 0 /\ ((fr / 16384) mod 2 = 1 <-> df64 hs (df = true)) /\ ((fr / 8192) mod 2 = 1 <-> more64 m hs)
  /\ 8 * (fr mod 8192) = off64 m hs.
Proof.
  intros F C O -> fr. unfold fr, fh_of, df64, more64, off64. destruct (where_is 44 hs) as [f|] eqn:W.
  - assert (1 <= f)%nat by (apply where_In in W; apply (chain_hdr _ _ _ _ _ _ C) in W; lia).
    destruct f as [|f]; [lia|]. cbn [frag_ptr fr_value Nat.add].
    pose proof (word_u16 m (S f + 2) F) as U. pose proof (frag_off6_offset m (S f)) as FO. pose proof (mf6_more m (S f)) as MF.
    unfold fr_offset in FO. unfold is_u16 in U. change (2^16) with 65536 in U.
    destruct (frag_field_u16 false (mf6 m (S f)) (frag_off6 m (S f)) ltac:(lia)) as (A1 & A2 & A3 & A4 & A5).
    split; [exact A1|]. split; [exact A2|]. split; [rewrite A3; split; [discriminate|tauto]|]. split; [rewrite A4; exact MF|].
    unfold fr_offset. lia.
  - cbn [frag_ptr fr_value]. destruct (frag_field_u16 df false 0 ltac:(lia)) as (A1 & A2 & A3 & A4 & A5).
    split; [exact A1|]. split; [exact A2|]. split; [exact A3|]. split; [rewrite A4; split; [discriminate|tauto]|].
    cbn in A5. lia.
Qed.
Definition id_value (ident : Z) (m : list Z) (f : option nat) : Z :=
  match f with Some f => u16 (be32 m (f + 4)) | None => ident end.
Lemma generate_id_val ident m f : generate_ipv4_id ident m f = octets 2 (id_value ident m f).
Proof. destruct f; reflexivity. Qed.
Lemma be32_low m f : Forall is_u8 m -> u16 (be32 m (f + 4)) = word m (f + 6).
Proof.
  intros F. unfold be32. rewrite !be16_word. replace (f + 4 + 2)%nat with (f + 6)%nat by lia. rewrite u16_mod.
  pose proof (word_u16 m (f + 6) F) as U. unfold is_u16 in U. change (2^16) with 65536 in U. lia.
Qed.
Lemma id_value_spec ident m hs off p up nh : Forall is_u8 m -> chain m nh off hs p up -> (1 <= off)%nat -> is_u16 ident ->
  id_value ident m (frag_ptr 0 (fh_of hs)) = id64 m hs ident /\ is_u16 (id64 m hs ident).
Proof.
  intros F C O I. unfold fh_of, id64. destruct (where_is 44 hs) as [f|] eqn:W.
  - assert (1 <= f)%nat by (apply where_In in W; apply (chain_hdr _ _ _ _ _ _ C) in W; lia).
    destruct f as [|f]; [lia|]. cbn [frag_ptr id_value Nat.add]. split; [apply (be32_low m (S f) F)|apply word_u16; exact F].
  - split; [reflexivity|exact I].
Qed.

Definition tos64 (c : tosconf) (m : list Z) (q : nat) : Z := if reset_tos c then new_tos c else tclass m q.
Lemma flow_tos_u8 c t : is_u8 t -> is_u8 (flow_tos c t).
Proof. unfold flow_tos, is_u8. change (2^8) with 256. destruct (dscp_only c); lia. Qed.
Lemma tos64_u8 c m q : is_u8 (new_tos c) -> is_u8 (tos64 c m q).
Proof. unfold tos64. destruct (reset_tos c); [tauto|intros _; apply tclass_u8]. Qed.

Lemma ext64_spec le c ident s d sk lin m hs pr up p oh out :
  Forall is_u8 m -> Forall is_u8 out -> (20 <= length out)%nat -> (lin <= length m)%nat -> chain m (oct m 6) 40 hs pr up -> (up <= lin)%nat ->
  is_u8 (new_tos c) -> is_u16 ident -> is_u32 s -> is_u32 d ->
  match ttp64_ipv4_external le c ident s d sk lin m (fh_of hs) p oh out with
  | XOk o => 1 < oct m 7 /\ routing_done m hs /\ length o = length out /\ Forall is_u8 o /\ skipn 20 o = skipn 20 out
      /\ ipv4_header o 0 (flow_tos c (tos64 c m 0)) (u16 (Z.of_nat (length out))) (id64 m hs ident)
           (df64 hs (generate_df_flag false 0 sk p oh (Z.of_nat (length out)) = true)) (more64 m hs) (off64 m hs)
           (oct m 7 - 1) (proto64 pr) s d
  | XIcmp j e i => (j = J64_TTL /\ e = E_TTL /\ i = 0 /\ oct m 7 <= 1)
      \/ (j = J64_SEGMENTS_LEFT /\ e = E_HDR_FIELD /\ 1 < oct m 7 /\ exists r, where_is 43 hs = Some r /\ oct m (r + 3) <> 0 /\ i = Z.of_nat (r + 3))
  | _ => False
  end.
Proof.
  intros F Fo L LL C U NT I Sa Da. unfold ttp64_ipv4_external.
  destruct (byte m 7 <=? 1) eqn:T; [left; change (byte m 7) with (oct m 7) in T; split; [reflexivity|split; [reflexivity|split; [reflexivity|lia]]]|].
  rewrite (segments_left_spec lin m 0 hs pr up LL C U). cbn [of_res xbind].
  change (byte m 7) with (oct m 7) in *.
  assert (RD : match where_is 43 hs with Some r => if oct m (r + 3) =? 0 then None else Some (r - 0 + 3)%nat | None => None end = None <-> routing_done m hs).
  { unfold routing_done. destruct (where_is 43 hs) as [r|]; [|tauto]. destruct (oct m (r + 3) =? 0) eqn:E; [apply Z.eqb_eq in E; tauto|apply Z.eqb_neq in E; split; [discriminate|tauto]]. }
  destruct (match where_is 43 hs with Some r => if oct m (r + 3) =? 0 then None else Some (r - 0 + 3)%nat | None => None end) as [o|] eqn:W.
  { right. destruct (where_is 43 hs) as [r|] eqn:W2; [|discriminate W]. destruct (oct m (r + 3) =? 0) eqn:E; [discriminate W|]. apply Z.eqb_neq in E. inversion W; subst.
    split; [reflexivity|]. split; [reflexivity|]. split; [lia|]. exists r. split; [reflexivity|]. split; [exact E|]. rewrite Nat.sub_0_r. reflexivity. }
  pose proof (proj1 RD eq_refl) as RDn. clear RD W.
  unfold xlat_proto. rewrite (hdr_last lin m 0 hs pr up LL C U). cbn [of_res xbind fst]. fold (proto64 pr). cbv zeta.
  rewrite generate_id_val, xlat_frag_off_val. unfold xlat_tos. rewrite (tclass_get m 0 F). fold (tos64 c m 0).
  destruct (id_value_spec ident m hs 40 pr up _ F C ltac:(lia) I) as [IV IU]. rewrite IV.
  pose proof (fr_value_spec m hs 40 _ pr up _ (generate_df_flag false 0 sk p oh (Z.of_nat (length out))) F C ltac:(lia) eq_refl) as (V1 & V2 & V3 & V4 & V5).
  assert (O7 : is_u8 (oct m 7)) by (apply oct_u8; exact F).
  destruct (header4_written le (flow_tos c (tos64 c m 0)) (u16 (Z.of_nat (length out))) (id64 m hs ident)
     (fr_value m (frag_ptr 0 (fh_of hs)) (generate_df_flag false 0 sk p oh (Z.of_nat (length out)))) (oct m 7 - 1) (proto64 pr) s d out Fo L) as (H1 & H2 & H3 & H4).
  { apply flow_tos_u8, tos64_u8, NT. } { rewrite u16_mod. unfold is_u16. apply Z.mod_pos_bound. lia. } { exact IU. } { exact V1. }
  { unfold is_u8 in *. lia. } { apply proto64_u8. exact (chain_u8 _ _ _ _ _ _ F C (oct_u8 m _ F)). } { exact Sa. } { exact Da. }
  split; [lia|]. split; [exact RDn|]. split; [exact H1|]. split; [exact H2|]. split; [exact H3|]. apply H4; assumption.
Qed.

Lemma int64_spec le c ident s d sk lin m h hs pr up p ih oh out :
  Forall is_u8 m -> Forall is_u8 out -> (20 <= length out)%nat -> (lin <= length m)%nat -> chain m (oct m (h + 6)) (h + 40) hs pr up -> (up <= lin)%nat ->
  is_u8 (new_tos c) -> is_u16 ident -> is_u32 s -> is_u32 d ->
  exists o, ttp64_ipv4_internal le c ident s d sk lin m h 0 p ih oh out = XOk o /\ length o = length out /\ Forall is_u8 o /\ skipn 20 o = skipn 20 out
      /\ ipv4_header o 0 (tos64 c m h) (u16 (u32 (40 + word m (h + 4) - ih + oh))) ident
           (1260 < u16 (u32 (40 + word m (h + 4) - ih + oh))) False 0 (oct m (h + 7)) (proto64 pr) s d.
Proof.
  intros F Fo L LL C U NT I Sa Da. unfold ttp64_ipv4_internal. cbn [frag_ptr of_res xbind].
  unfold xlat_proto. rewrite (hdr_last lin m h hs pr up LL C U). cbn [of_res xbind fst]. fold (proto64 pr). cbv zeta.
  rewrite generate_id_val, xlat_frag_off_val. unfold xlat_tos. rewrite (tclass_get m h F). fold (tos64 c m h). rewrite be16_word.
  set (tl := u16 (u32 (40 + word m (h + 4) - ih + oh))). cbn [id_value fr_value]. cbn [generate_df_flag].
  pose proof (frag_field_u16 (1260 <? tl) false 0 ltac:(lia)) as (V1 & V2 & V3 & V4 & V5).
  destruct (header4_written le (tos64 c m h) tl ident (16384 * (if 1260 <? tl then 1 else 0) + 8192 * 0 + 0 / 8) (oct m (h + 7)) (proto64 pr) s d out Fo L) as (H1 & H2 & H3 & H4).
  { apply tos64_u8, NT. } { unfold tl. rewrite u16_mod. unfold is_u16. apply Z.mod_pos_bound. lia. } { exact I. } { exact V1. }
  { apply oct_u8. exact F. } { apply proto64_u8. exact (chain_u8 _ _ _ _ _ _ F C (oct_u8 m _ F)). } { exact Sa. } { exact Da. }
  eexists. split; [reflexivity|]. split; [exact H1|]. split; [exact H2|]. split; [exact H3|].
  apply H4; [exact V2|rewrite V3; lia|rewrite V4; split; [discriminate|tauto]|exact V5].
Qed.

(** ** IPv6 headers *)

Lemma nibbles x t : 16 * ((96 + x mod 16) / 16) + t = 96 + t.
Proof. lia. Qed.
Lemma tclass_of a b r tc : 0 <= tc < 256 -> a = 96 + tc / 16 -> b = 16 * (tc mod 16) ->
  oct (a :: b :: r) 0 / 16 = 6 /\ tclass (a :: b :: r) 0 = tc /\ oct (a :: b :: r) 1 mod 16 = 0.
Proof. intros T -> ->. unfold tclass, word, oct. cbn [nth Nat.add]. lia. Qed.

Definition tc46 (reset : bool) (m : list Z) (q : nat) : Z := if reset then 0 else oct m (q + 1).
Lemma tc46_parts (reset : bool) m q : Forall is_u8 m ->
  (if reset then 0 else byte m (q + 1) / 16) = tc46 reset m q / 16 /\ (if reset then 0 else u8 (byte m (q + 1) * 16)) = 16 * (tc46 reset m q mod 16)
  /\ 0 <= tc46 reset m q < 256.
Proof.
  intros F. pose proof (oct_u8 m (q + 1) F) as U. unfold is_u8 in U. change (2^8) with 256 in U. unfold tc46. change (byte m (q + 1)) with (oct m (q + 1)).
  destruct reset; [split; [reflexivity|split; [reflexivity|lia]]|]. unfold u8. change (2^8) with 256. lia.
Qed.

Lemma hdr6_written tc len nh hl src dst out :
  Forall is_u8 out -> (40 <= length out)%nat -> 0 <= tc < 256 -> is_u16 len -> is_u8 nh -> is_u8 hl -> is_u128 src -> is_u128 dst ->
  let o := put 24 (octets 16 dst) (put 8 (octets 16 src) (put 4 (octets 2 len) (put 7 [hl] (put 3 [0] (put 2 [0] (put 1 [16 * (tc mod 16)]
           (put 0 [96 + tc / 16] (put 6 [nh] out)))))))) in
  length o = length out /\ Forall is_u8 o /\ skipn 40 o = skipn 40 out /\ ipv6_header o 0 tc len nh hl src dst.
Proof.
  intros F L T Le N H Sr Ds o.
  assert (E : o = (96 + tc / 16) :: (16 * (tc mod 16)) :: [0; 0; octet 2 len 0; octet 2 len 1; nh; hl] ++ octets 16 src ++ octets 16 dst ++ skipn 40 out).
  { unfold o. clear o. rewrite !octets2, !octets16. do 40 (destruct out as [|? out]; [exfalso; cbn [length] in L; clear - L; lia|]). computes. reflexivity. }
  clearbody o. subst o. split; [|split; [|split]].
  - cbn [length app]. rewrite !app_length, !octets_length, skipn_length. lia.
  - cbn [app]. do 8 (constructor; [try assumption; try apply is_u8_octet; unfold is_u8; change (2^8) with 256; lia|]).
    apply Forall_app. split; [apply octets_u8|]. apply Forall_app. split; [apply octets_u8|].
    rewrite <- (firstn_skipn 40 out) in F. apply Forall_app in F. tauto.
  - rewrite !octets16. reflexivity.
  - unfold ipv6_header. pose proof (octet2_word len) as W. rewrite Z.mod_small in W by (apply u16_range; assumption).
    match goal with |- oct (?a :: ?b :: ?r) _ / 16 = _ /\ _ => destruct (tclass_of a b r tc T eq_refl eq_refl) as (A1 & A2 & A3) end.
    split; [exact A1|]. split; [exact A2|]. split; [exact A3|]. split; [reflexivity|].
    split; [unfold word, oct; cbn [nth Nat.add app]; exact W|]. split; [reflexivity|]. split; [reflexivity|].
    split.
    + transitivity (be_of (octets 16 src)); [|apply be_of_octets; exact Sr]. unfold field. rewrite !octets16. reflexivity.
    + transitivity (be_of (octets 16 dst)); [|apply be_of_octets; exact Ds]. unfold field. rewrite !octets16. reflexivity.
Qed.

Lemma hdr6f_written tc len nh hl src dst fo id out :
  Forall is_u8 out -> (48 <= length out)%nat -> 0 <= tc < 256 -> is_u16 len -> is_u8 nh -> is_u8 hl -> is_u128 src -> is_u128 dst -> is_u16 fo -> is_u32 id ->
  let o := put 24 (octets 16 dst) (put 8 (octets 16 src) (put 4 (octets 2 len) (put 44 (octets 4 id) (put 42 (octets 2 fo) (put 41 [0] (put 6 [44]
           (put 40 [nh] (put 7 [hl] (put 3 [0] (put 2 [0] (put 1 [16 * (tc mod 16)] (put 0 [96 + tc / 16] (put 6 [nh] out))))))))))))) in
  length o = length out /\ Forall is_u8 o /\ skipn 48 o = skipn 48 out /\ ipv6_header o 0 tc len 44 hl src dst
  /\ forall more, (fo mod 2 = 1 <-> more) -> (fo / 2) mod 4 = 0 -> fragment_header o 40 nh (fo - fo mod 8) more id.
Proof.
  intros F L T Le N H Sr Ds Fo Id o.
  assert (E : o = (96 + tc / 16) :: (16 * (tc mod 16)) :: [0; 0; octet 2 len 0; octet 2 len 1; 44; hl] ++ octets 16 src ++ octets 16 dst
      ++ [nh; 0; octet 2 fo 0; octet 2 fo 1] ++ octets 4 id ++ skipn 48 out).
  { unfold o. clear o. rewrite !octets2, !octets4, !octets16. do 48 (destruct out as [|? out]; [exfalso; cbn [length] in L; clear - L; lia|]). computes. reflexivity. }
  clearbody o. subst o. split; [|split; [|split; [|split]]].
  - cbn [length app]. rewrite !app_length, !octets_length. cbn [length]. rewrite !app_length, !octets_length, skipn_length. lia.
  - cbn [app]. do 8 (constructor; [try assumption; try apply is_u8_octet; unfold is_u8; change (2^8) with 256; lia|]).
    apply Forall_app. split; [apply octets_u8|]. apply Forall_app. split; [apply octets_u8|].
    do 4 (constructor; [try assumption; try apply is_u8_octet; apply u8_0|]). apply Forall_app. split; [apply octets_u8|].
    rewrite <- (firstn_skipn 48 out) in F. apply Forall_app in F. tauto.
  - rewrite !octets16, octets4. reflexivity.
  - unfold ipv6_header. pose proof (octet2_word len) as W. rewrite Z.mod_small in W by (apply u16_range; assumption).
    match goal with |- oct (?a :: ?b :: ?r) _ / 16 = _ /\ _ => destruct (tclass_of a b r tc T eq_refl eq_refl) as (A1 & A2 & A3) end.
    split; [exact A1|]. split; [exact A2|]. split; [exact A3|]. split; [reflexivity|].
    split; [unfold word, oct; cbn [nth Nat.add app]; exact W|]. split; [reflexivity|]. split; [reflexivity|].
    split.
    + transitivity (be_of (octets 16 src)); [|apply be_of_octets; exact Sr]. unfold field. rewrite !octets16. reflexivity.
    + transitivity (be_of (octets 16 dst)); [|apply be_of_octets; exact Ds]. unfold field. rewrite !octets16. reflexivity.
  - intros more M R. unfold fragment_header, fr_offset, fr_more, word, oct. rewrite !octets16, octets4. cbn [nth Nat.add app].
    pose proof (octet2_word fo) as W. rewrite Z.mod_small in W by (apply u16_range; assumption). rewrite W.
    pose proof (octet4_word id) as W4. rewrite Z.mod_small in W4 by (apply u32_range; assumption). rewrite W4.
    split; [reflexivity|]. split; [reflexivity|]. split; [reflexivity|]. split; [exact M|]. split; [exact R|reflexivity].
Qed.

(** The fragment offset field *)
Definition fo_value (off : Z) (mf : bool) : Z := 8 * (u16 off / 8) + (if mf then 1 else 0).
Lemma fo_value_spec off mf : 
  let fo := fo_value off mf in
  is_u16 fo /\ (fo mod 2 = 1 <-> mf = true) /\ (fo / 2) mod 4 = 0 /\ fo - fo mod 8 = 8 * (u16 off / 8).
Proof. unfold fo_value. rewrite u16_mod. unfold is_u16. change (2^16) with 65536. destruct mf; lia. Qed.

Lemma off4_range m q : Forall is_u8 m -> 0 <= fr4_offset m q < 65536 /\ fr4_offset m q mod 8 = 0.
Proof. intros F. unfold fr4_offset. lia. Qed.
Lemma frag4_iff m q : fragmented4 m q = true <-> fr4_offset m q <> 0 \/ fr4_more m q.
Proof.
  unfold fragmented4. rewrite orb_true_iff, mf4_more, frag_off4_offset. destruct (fr4_offset m q =? 0) eqn:E; cbn [negb]; [apply Z.eqb_eq in E|apply Z.eqb_neq in E];
  intuition (try discriminate; try contradiction).
Qed.
Lemma xlat_nexthdr_proto p : xlat_nexthdr p = proto46 p. Proof. reflexivity. Qed.
Lemma proto46_u8 p : is_u8 p -> is_u8 (proto46 p).
Proof. unfold proto46, is_u8. change (2^8) with 256. destruct (p =? 1); lia. Qed.

(** What the writes of ttp46_ipv6_external and _internal come to *)
Definition written46 (reset : bool) (frag : bool) (m : list Z) (q : nat) (hl len src dst : Z) (out : list Z) : list Z :=
  let tc := tc46 reset m q in
  let nh := proto46 (oct m (q + 9)) in
  if frag then
    put 24 (octets 16 dst) (put 8 (octets 16 src) (put 4 (octets 2 len) (put 44 (octets 4 (word m (q + 4))) (put 42 (octets 2 (fo_value (fr4_offset m q) (mf4 m q))) (put 41 [0] (put 6 [44]
           (put 40 [nh] (put 7 [hl] (put 3 [0] (put 2 [0] (put 1 [16 * (tc mod 16)] (put 0 [96 + tc / 16] (put 6 [nh] out)))))))))))))
  else put 24 (octets 16 dst) (put 8 (octets 16 src) (put 4 (octets 2 len) (put 7 [hl] (put 3 [0] (put 2 [0] (put 1 [16 * (tc mod 16)]
           (put 0 [96 + tc / 16] (put 6 [nh] out)))))))).
Lemma common46 reset hairpin inner next m q out : Forall is_u8 m -> (40 <= length out)%nat ->
  ttcp46_ipv6_common reset hairpin inner next m q (put 6 [proto46 (oct m (q + 9))] out) =
  (let frag := fragmented4 m q || next in
   let tc := tc46 reset m q in
   let nh := proto46 (oct m (q + 9)) in
   let k hl := put 7 [hl] (put 3 [0] (put 2 [0] (put 1 [16 * (tc mod 16)] (put 0 [96 + tc / 16] (put 6 [nh] out))))) in
   let$ hl := (if negb inner && negb hairpin then if oct m (q + 8) <=? 1 then XIcmp J46_TTL E_TTL 0 else XOk (oct m (q + 8) - 1) else XOk (oct m (q + 8))) in
   XOk (if frag then put 44 (octets 4 (word m (q + 4))) (put 42 (octets 2 (fo_value (fr4_offset m q) (mf4 m q))) (put 41 [0] (put 6 [44] (put 40 [nh] (k hl)))))
        else k hl)).
Proof.
  intros F L. unfold ttcp46_ipv6_common. cbv zeta. destruct (tc46_parts reset m q F) as (T1 & T2 & T3).
  rewrite T1, T2. set (tc := tc46 reset m q) in *. set (nh := proto46 (oct m (q + 9))).
  assert (E0 : put 0 [16 * (byte (put 0 [96 + byte (put 6 [nh] out) 0 mod 16] (put 6 [nh] out)) 0 / 16) + tc / 16] (put 0 [96 + byte (put 6 [nh] out) 0 mod 16] (put 6 [nh] out))
     = put 0 [96 + tc / 16] (put 6 [nh] out)).
  { do 40 (destruct out as [|? out]; [exfalso; cbn [length] in L; clear - L; lia|]). unfold byte. computes. rewrite nibbles. reflexivity. }
  rewrite E0. clear E0. change (byte m (q + 8)) with (oct m (q + 8)).
  destruct (if negb inner && negb hairpin then if oct m (q + 8) <=? 1 then XIcmp J46_TTL E_TTL 0 else XOk (oct m (q + 8) - 1) else XOk (oct m (q + 8))) as [hl|j|j e i|]; try reflexivity.
  cbn [xbind]. rewrite frag_off4_offset. destruct (fragmented4 m q || next); [|reflexivity].
  assert (E1 : byte (put 7 [hl] (put 3 [0] (put 2 [0] (put 1 [16 * (tc mod 16)] (put 0 [96 + tc / 16] (put 6 [nh] out)))))) 6 = nh).
  { do 40 (destruct out as [|? out]; [exfalso; cbn [length] in L; clear - L; lia|]). reflexivity. }
  rewrite E1. unfold build_id_field. rewrite be16_word. reflexivity.
Qed.

(** The first outgoing sk_buff's headers *)
Lemma written46_spec (reset frag : bool) m q hl len src dst out : Forall is_u8 m -> Forall is_u8 out -> ((if frag then 48 else 40) <= length out)%nat ->
  is_u8 hl -> is_u16 len -> is_u128 src -> is_u128 dst ->
  let o := written46 reset frag m q hl len src dst out in
  length o = length out /\ Forall is_u8 o /\ skipn (if frag then 48 else 40) o = skipn (if frag then 48 else 40) out
  /\ ipv6_header o 0 (tc46 reset m q) len (if frag then 44 else proto46 (oct m (q + 9))) hl src dst
  /\ (frag = true -> fragment_header o 40 (proto46 (oct m (q + 9))) (fr4_offset m q) (fr4_more m q) (word m (q + 4))).
Proof.
  intros F Fo L H Le Sr Ds. destruct (tc46_parts reset m q F) as (_ & _ & T). unfold written46. cbv zeta.
  assert (N : is_u8 (proto46 (oct m (q + 9)))) by (apply proto46_u8, oct_u8, F).
  destruct frag.
  - pose proof (fo_value_spec (fr4_offset m q) (mf4 m q)) as (V1 & V2 & V3 & V4). pose proof (off4_range m q F) as [O1 O2].
    pose proof (word_u16 m (q + 4) F) as WU. assert (WU32 : is_u32 (word m (q + 4))) by (unfold is_u16, is_u32 in *; change (2^16) with 65536 in *; change (2^32) with 4294967296; lia).
    destruct (hdr6f_written (tc46 reset m q) len (proto46 (oct m (q + 9))) hl src dst (fo_value (fr4_offset m q) (mf4 m q)) (word m (q + 4)) out Fo L T Le N H Sr Ds V1 WU32) as (A1 & A2 & A3 & A4 & A5).
    split; [exact A1|]. split; [exact A2|]. split; [exact A3|]. split; [exact A4|]. intros _.
    assert (E : 8 * (u16 (fr4_offset m q) / 8) = fr4_offset m q) by (rewrite u16_mod; lia). rewrite E in V4.
    assert (M : fo_value (fr4_offset m q) (mf4 m q) mod 2 = 1 <-> fr4_more m q) by (rewrite V2; apply mf4_more).
    pose proof (A5 (fr4_more m q) M V3) as A6. rewrite V4 in A6. exact A6.
  - destruct (hdr6_written (tc46 reset m q) len (proto46 (oct m (q + 9))) hl src dst out Fo L T Le N H Sr Ds) as (A1 & A2 & A3 & A4).
    split; [exact A1|]. split; [exact A2|]. split; [exact A3|]. split; [exact A4|discriminate].
Qed.

(** ** Fragments *)

Lemma oct_firstn n (o : list Z) k : (k < n)%nat -> oct (firstn n o) k = oct o k.
Proof. intros L. unfold oct. rewrite <- (firstn_skipn n o) at 2. destruct (Nat.lt_ge_cases k (length (firstn n o))).
  - rewrite app_nth1; [reflexivity|assumption].
  - rewrite nth_overflow by assumption. rewrite app_nth2 by assumption. rewrite firstn_length in H. rewrite skipn_all2 by lia. destruct (k - length (firstn n o))%nat; reflexivity.
Qed.
Lemma field_firstn n (o : list Z) a w : (a + w <= n)%nat -> field (firstn n o) a w = field o a w.
Proof. intros L. unfold field. rewrite skipn_firstn_comm, firstn_firstn, Nat.min_l by lia. reflexivity. Qed.
Lemma ipv6_firstn tc len nh hl src dst o : ipv6_header o 0 tc len nh hl src dst -> ipv6_header (firstn 48 o) 0 tc len nh hl src dst.
Proof. unfold ipv6_header, tclass, word. rewrite !oct_firstn, !field_firstn by lia. exact (fun H => H). Qed.
Lemma frag_firstn nh off more id o : fragment_header o 40 nh off more id -> fragment_header (firstn 48 o) 40 nh off more id.
Proof. unfold fragment_header, fr_offset, fr_more, word. rewrite !oct_firstn by lia. exact (fun H => H). Qed.

Lemma refill hdrs o len fo tc l0 hl src dst nh off0 more0 id more off :
  length hdrs = 48%nat -> (48 <= length o)%nat -> ipv6_header hdrs 0 tc l0 44 hl src dst -> fragment_header hdrs 40 nh off0 more0 id ->
  is_u16 len -> is_u16 fo -> (fo mod 2 = 1 <-> more) -> (fo / 2) mod 4 = 0 -> fo - fo mod 8 = off ->
  let o' := put 42 (octets 2 fo) (put 4 (octets 2 len) (put 0 hdrs o)) in
  length o' = length o /\ ipv6_header o' 0 tc len 44 hl src dst /\ fragment_header o' 40 nh off more id /\ skipn 48 o' = skipn 48 o.
Proof.
  intros Lh L H6 Hf Le Fo M R O o'.
  assert (E : o' = firstn 4 hdrs ++ octets 2 len ++ firstn 36 (skipn 6 hdrs) ++ octets 2 fo ++ skipn 44 hdrs ++ skipn 48 o).
  { unfold o'. clear - Lh L. rewrite !octets2. 
    do 48 (destruct hdrs as [|? hdrs]; [discriminate Lh|]). destruct hdrs as [|? hdrs]; [|discriminate Lh].
    do 48 (destruct o as [|? o]; [exfalso; cbn [length] in L; clear - L; lia|]). computes. reflexivity. }
  clearbody o'. subst o'. split.
  { rewrite !app_length, !octets_length, !firstn_length, !skipn_length, Lh. cbn [Nat.min Nat.sub]. lia. }
  do 48 (destruct hdrs as [|? hdrs]; [discriminate Lh|]). destruct hdrs as [|? hdrs]; [|discriminate Lh]. clear Lh.
  rewrite !octets2. cbn [firstn skipn app].
  pose proof (octet2_word len) as W. rewrite Z.mod_small in W by (apply u16_range; assumption).
  pose proof (octet2_word fo) as W2. rewrite Z.mod_small in W2 by (apply u16_range; assumption).
  split; [|split].
  - unfold ipv6_header, tclass, word, oct, field in *. cbn [nth Nat.add firstn skipn] in *. destruct H6 as (B1 & B2 & B3 & B4 & B5 & B6 & B7 & B8 & B9).
    split; [exact B1|]. split; [exact B2|]. split; [exact B3|]. split; [exact B4|]. split; [exact W|]. split; [exact B6|]. split; [exact B7|]. split; [exact B8|exact B9].
  - unfold fragment_header, fr_offset, fr_more, word, oct in *. cbn [nth Nat.add] in *. destruct Hf as (B1 & B2 & B3 & B4 & B5 & B6).
    split; [exact B1|]. split; [exact B2|]. rewrite W2. split; [exact O|]. split; [exact M|]. split; [exact R|exact B6].
  - reflexivity.
Qed.

(* the first fragment: only More-Fragments changes *)
Lemma set_mf o tc len hl src dst nh off more id : (48 <= length o)%nat -> ipv6_header o 0 tc len 44 hl src dst -> fragment_header o 40 nh off more id ->
  let o' := put 42 [byte o 42; 2 * (byte o 43 / 2) + 1] o in
  length o' = length o /\ ipv6_header o' 0 tc len 44 hl src dst /\ fragment_header o' 40 nh off True id /\ skipn 48 o' = skipn 48 o.
Proof.
  intros L H6 Hf o'. change (byte o) with (oct o) in o'.
  assert (LP : forall x : list Z, length x = 2%nat -> (42 + length x <= length o)%nat) by (intros x ->; lia).
  assert (N : forall k, (k < 42 \/ 44 <= k)%nat -> oct o' k = oct o k).
  { intros k K. unfold o', oct at 1. rewrite put_nth by (apply LP; reflexivity). cbn [length]. destruct (42 <=? k)%nat eqn:A; [apply Nat.leb_le in A|reflexivity].
    destruct (k <? 42 + 2)%nat eqn:B; [apply Nat.ltb_lt in B; lia|reflexivity]. }
  assert (N2 : oct o' 42 = oct o 42). { unfold o', oct at 1. rewrite put_nth by (apply LP; reflexivity). reflexivity. }
  assert (N3 : oct o' 43 = 2 * (oct o 43 / 2) + 1). { unfold o', oct at 1. rewrite put_nth by (apply LP; reflexivity). reflexivity. }
  assert (FF : forall a w, (a + w <= 42)%nat -> field o' a w = field o a w).
  { intros a w A. rewrite <- (field_firstn 42 o' a w A), <- (field_firstn 42 o a w A). f_equal. unfold o', put.
    rewrite firstn_app, firstn_firstn, firstn_length, Nat.min_id, Nat.min_l, Nat.sub_diag by lia. cbn [firstn]. apply app_nil_r. }
  assert (SK : skipn 48 o' = skipn 48 o). { unfold o'. rewrite skipn_put; [reflexivity| |]; cbn [length]; lia. }
  assert (LO : length o' = length o). { unfold o'. apply put_length. cbn [length]. lia. }
  clearbody o'. split; [exact LO|]. split; [|split; [|exact SK]].
  - unfold ipv6_header, tclass, word in *. rewrite !N, !FF by lia. exact H6.
  - unfold fragment_header, fr_offset, fr_more, word in *. cbn [Nat.add] in *. rewrite N2, N3, !N by lia. destruct Hf as (B1 & B2 & B3 & B4 & B5 & B6).
    split; [exact B1|]. split; [exact B2|].
    split; [lia|]. split; [|split; [lia|exact B6]]. split; [tauto|intros _; lia].
Qed.

(* All but the last carry a multiple of 8 octets. *)
Fixpoint wf_chain (os : list (list Z)) : Prop :=
  match os with
  | [] => True
  | o :: os => (48 < length o)%nat /\ (os <> [] -> (Z.of_nat (length o) - 48) mod 8 = 0) /\ wf_chain os
  end.
Definition carried (os : list (list Z)) : list Z := concat (map (skipn 48) os).

Lemma nonempty_skip (o : list Z) : (48 < length o)%nat -> skipn 48 o <> [].
Proof. intros L E. assert (N : length (skipn 48 o) = 0%nat) by (rewrite E; reflexivity). rewrite skipn_length in N. lia. Qed.

Lemma autofill_series hdrs mf tc l0 hl src dst nh off0 more0 id : length hdrs = 48%nat -> ipv6_header hdrs 0 tc l0 44 hl src dst -> fragment_header hdrs 40 nh off0 more0 id ->
  forall os off, os <> [] -> wf_chain os -> 0 <= off -> off mod 8 = 0 -> off + Z.of_nat (length (carried os)) <= 65515 ->
  series tc hl src dst nh id (mf = true) off (carried os) (autofill hdrs mf off os).
Proof.
  intros Lh H6 Hf os. induction os as [|o os IH]; intros off NE W O1 O2 B; [congruence|].
  destruct W as (W1 & W2 & W3). cbn [autofill]. cbv zeta. unfold carried in *. cbn [map concat] in *. rewrite app_length, skipn_length in B.
  set (last := match os with [] => mf | _ => true end).
  pose proof (fo_value_spec off last) as (V1 & V2 & V3 & V4). rewrite u16_mod, (Z.mod_small off) in V4 by lia. replace (8 * (off / 8)) with off in V4 by lia.
  assert (LB : u16 (Z.of_nat (length o) - 40) = Z.of_nat (length o) - 40) by (rewrite u16_mod; apply Z.mod_small; lia).
  assert (LU : is_u16 (Z.of_nat (length o) - 40)) by (apply u16_range; lia).
  change (build_ipv6_frag_off_field off last) with (octets 2 (fo_value off last)). rewrite LB.
  destruct os as [|o2 os].
  - cbn [map concat autofill]. rewrite app_nil_r. apply s_last.
    destruct (refill hdrs o (Z.of_nat (length o) - 40) (fo_value off last) tc l0 hl src dst nh off0 more0 id (mf = true) off Lh ltac:(lia) H6 Hf LU V1 V2 V3 V4) as (A1 & A2 & A3 & A4).
    unfold fragment6. rewrite A1. split; [exact A2|]. split; [exact A3|]. split; [exact A4|]. apply nonempty_skip, W1.
  - assert (M : fo_value off last mod 2 = 1 <-> True) by (rewrite V2; split; [tauto|reflexivity]).
    destruct (refill hdrs o (Z.of_nat (length o) - 40) (fo_value off last) tc l0 hl src dst nh off0 more0 id True off Lh ltac:(lia) H6 Hf LU V1 M V3 V4) as (A1 & A2 & A3 & A4).
    specialize (W2 ltac:(discriminate)).
    apply s_more.
    + unfold fragment6. rewrite A1. split; [exact A2|]. split; [exact A3|]. split; [exact A4|]. apply nonempty_skip, W1.
    + replace (u16 (off + Z.of_nat (length o) - 48)) with (off + Z.of_nat (length (skipn 48 o))) by (rewrite skipn_length, u16_mod, Z.mod_small; lia).
      apply IH; [discriminate|exact W3| | |]; rewrite skipn_length; lia.
Qed.

Lemma autofill_hdr6_series o os tc hl src dst nh off more id : os <> [] -> wf_chain (o :: os) -> 
  ipv6_header o 0 tc (Z.of_nat (length o) - 40) 44 hl src dst -> fragment_header o 40 nh off more id ->
  off + Z.of_nat (length (carried (o :: os))) <= 65515 -> Forall is_u8 o ->
  series tc hl src dst nh id more off (carried (o :: os)) (autofill_hdr6 (o :: os)).
Proof.
  intros NE W H6 Hf B F. destruct W as (W1 & W2 & W3). specialize (W2 NE). unfold autofill_hdr6. destruct os as [|o2 os]; [congruence|]. cbv zeta.
  destruct (set_mf o tc (Z.of_nat (length o) - 40) hl src dst nh off more id ltac:(lia) H6 Hf) as (A1 & A2 & A3 & A4).
  set (o' := put 42 [byte o 42; 2 * (byte o 43 / 2) + 1] o) in *.
  assert (OFF : frag_off6 o 40 = off) by (rewrite frag_off6_offset; apply Hf).
  assert (OR : 0 <= off /\ off mod 8 = 0).
  { rewrite <- OFF, frag_off6_offset. unfold fr_offset. pose proof (word_u16 o (40 + 2) F) as WU. unfold is_u16 in WU. lia. }
  pose proof B as B'. unfold carried in B'. cbn [map concat] in B'. rewrite app_length, skipn_length in B'.
  change (carried (o :: o2 :: os)) with (skipn 48 o ++ carried (o2 :: os)). apply s_more.
  - unfold fragment6. rewrite A1. split; [exact A2|]. split; [exact A3|]. split; [exact A4|]. apply nonempty_skip, W1.
  - rewrite OFF. replace (u16 (off + Z.of_nat (length o) - 48)) with (off + Z.of_nat (length (skipn 48 o))) by (rewrite skipn_length, u16_mod, Z.mod_small; lia).
    assert (L' : (48 <= length o')%nat) by lia.
    assert (ME : mf6 o 40 = true <-> more).
    { rewrite mf6_more. apply Hf. }
    assert (X : series tc hl src dst nh id (mf6 o 40 = true) (off + Z.of_nat (length (skipn 48 o))) (carried (o2 :: os)) (autofill (firstn 48 o') (mf6 o 40) (off + Z.of_nat (length (skipn 48 o))) (o2 :: os))).
    { apply (autofill_series (firstn 48 o') (mf6 o 40) tc (Z.of_nat (length o) - 40) hl src dst nh off True id).
      + rewrite firstn_length. lia.
      + apply ipv6_firstn; assumption.
      + apply frag_firstn; assumption.
      + discriminate.
      + exact W3.
      + lia.
      + rewrite skipn_length. lia.
      + unfold carried. cbn [map concat]. rewrite app_length, !skipn_length. rewrite app_length, !skipn_length in B'. lia. }
    revert X. generalize (carried (o2 :: os)), (autofill (firstn 48 o') (mf6 o 40) (off + Z.of_nat (length (skipn 48 o))) (o2 :: os)), (off + Z.of_nat (length (skipn 48 o))).
    intros d ps z X. clear - X ME. induction X as [z o0 d (Y1 & Y2 & Y3 & Y4)|z o0 d d' os0 Y X IH].
    + apply s_last. unfold fragment6. split; [exact Y1|]. split; [|split; assumption].
      destruct Y2 as (Z1 & Z2 & Z3 & Z4 & Z5 & Z6). unfold fragment_header. rewrite <- ME. tauto.
    + apply s_more; assumption.
Qed.

Lemma pieces_spec per : (0 < per)%nat -> forall fuel pl, (length pl <= fuel)%nat -> pl <> [] ->
  concat (pieces fuel per pl) = pl /\ Forall (fun p => (0 < length p <= per)%nat) (pieces fuel per pl)
  /\ (forall ps p q, pieces fuel per pl = ps ++ p :: q -> q <> [] -> length p = per)
  /\ ((per < length pl)%nat -> exists p p2 ps, pieces fuel per pl = p :: p2 :: ps).
Proof.
  intros P fuel. induction fuel as [|fuel IH]; intros pl L NE; [destruct pl; [congruence|cbn in L; lia]|].
  cbn [pieces]. destruct pl as [|x pl]; [congruence|]. remember (x :: pl) as l eqn:E. assert (L1 : (0 < length l)%nat) by (subst; cbn; lia).
  destruct (per <? length l)%nat eqn:C; [apply Nat.ltb_lt in C|apply Nat.ltb_ge in C].
  - assert (LS : length (skipn per l) = (length l - per)%nat) by apply skipn_length.
    assert (NE2 : skipn per l <> []) by (intros X; rewrite X in LS; cbn in LS; lia).
    destruct (IH (skipn per l) ltac:(lia) NE2) as (I1 & I2 & I3 & I4).
    assert (LF : length (firstn per l) = per) by (rewrite firstn_length; lia).
    split; [cbn [concat]; rewrite I1; apply firstn_skipn|]. split; [constructor; [lia|exact I2]|]. split.
    + intros ps p q Q N. destruct ps as [|p0 ps]; cbn [app] in Q; inversion Q; subst; [exact LF|]. eapply I3; eassumption.
    + intros _. destruct (pieces fuel per (skipn per l)) as [|p2 ps] eqn:PE; [exfalso; apply NE2; rewrite <- I1; reflexivity|]. eauto.
  - split; [cbn [concat]; apply app_nil_r|]. split; [repeat constructor; lia|]. split; [|lia].
    intros ps p q Q N. destruct ps as [|p0 ps]; cbn [app] in Q; inversion Q; subst; [congruence|]. destruct ps; discriminate.
Qed.

Lemma with_headers_carried fresh ps : (forall i, length (fresh i) = 48%nat) -> forall i, carried (with_headers fresh i ps) = concat ps.
Proof.
  intros Fr. induction ps as [|p ps IH]; intros i; [reflexivity|]. cbn [with_headers]. unfold carried in *. cbn [map concat]. rewrite IH.
  rewrite skipn_app, Fr, Nat.sub_diag, (skipn_all2 (fresh i)) by (rewrite Fr; lia). reflexivity.
Qed.
Lemma with_headers_wf fresh per ps : (forall i, length (fresh i) = 48%nat) -> per mod 8 = 0 -> forall i,
  Forall (fun p => (0 < length p)%nat) ps -> (forall qs p q, ps = qs ++ p :: q -> q <> [] -> Z.of_nat (length p) = per) -> wf_chain (with_headers fresh i ps).
Proof.
  intros Fr P. induction ps as [|p ps IH]; intros i F A; cbn [with_headers wf_chain]; [exact I|].
  inversion F; subst. split; [rewrite app_length, Fr; lia|]. split.
  - intros N. rewrite app_length, Fr. assert (LP : Z.of_nat (length p) = per). { apply (A [] p ps); [reflexivity|]. intros ->. apply N. reflexivity. } lia.
  - apply IH; [assumption|]. intros qs p' q E. apply (A (p :: qs) p' q). cbn. rewrite E. reflexivity.
Qed.
Lemma with_headers_len fresh ps n : (forall i, length (fresh i) = 48%nat) -> Forall (fun p => (length p <= n)%nat) ps ->
  forall i, Forall (fun o => (length o <= 48 + n)%nat) (with_headers fresh i ps).
Proof. intros Fr F. induction F; intros i; cbn [with_headers]; constructor; [rewrite app_length, Fr; lia|apply IHF]. Qed.
Lemma autofill_lengths hdrs mf : length hdrs = 48%nat -> forall os off, Forall (fun o => (48 <= length o)%nat) os -> map (@length Z) (autofill hdrs mf off os) = map (@length Z) os.
Proof.
  intros L. induction os as [|o os IH]; intros off F; [reflexivity|]. inversion F; subst. cbn [autofill map]. cbv zeta. rewrite IH by assumption. f_equal.
  assert (A : length (put 0 hdrs o) = length o) by (apply put_length; lia).
  rewrite put_length; [rewrite put_length; [exact A|rewrite A, octets_length; lia]|].
  rewrite put_length by (rewrite A, octets_length; lia). rewrite A. unfold build_ipv6_frag_off_field. rewrite octets_length. lia.
Qed.


(** ** The external and internal IPv6 headers *)

Definition some_next (next : list (list Z)) : bool := match next with [] => false | _ => true end.
Definition hops46 (hairpin : bool) (m : list Z) : Z := if hairpin then oct m 8 else oct m 8 - 1.
Lemma ext46_spec fuel reset hp s d lin m out next : Forall is_u8 m -> (40 <= length out)%nat ->
  match ttp46_ipv6_external fuel reset hp s d lin m (out :: next) with
  | XOk r => has_unexpired_src_route fuel lin m 0 = Ok false /\ (hp = false -> 1 < oct m 8)
      /\ r = autofill_hdr6 (written46 reset (fragmented4 m 0 || some_next next) m 0 (hops46 hp m) (u16 (Z.of_nat (length out) - 40)) s d out :: next)
  | XIcmp j e i => (j = J46_SRC_ROUTE /\ e = E_SRC_ROUTE /\ i = 0 /\ has_unexpired_src_route fuel lin m 0 = Ok true)
      \/ (j = J46_TTL /\ e = E_TTL /\ i = 0 /\ hp = false /\ oct m 8 <= 1 /\ has_unexpired_src_route fuel lin m 0 = Ok false)
  | XDrop _ => False
  | XUB => forall b, has_unexpired_src_route fuel lin m 0 <> Ok b
  end.
Proof.
  intros F L. unfold ttp46_ipv6_external. fold (some_next next).
  destruct (has_unexpired_src_route fuel lin m 0) as [[|]| |] eqn:R; cbn [of_res xbind]; try discriminate.
  { left. tauto. }
  cbv zeta. rewrite xlat_nexthdr_proto. change (byte m 9) with (oct m (0 + 9)). rewrite (common46 reset hp false (some_next next) m 0 out F L).
  cbv zeta. unfold written46. cbv zeta. change (0 + 8)%nat with 8%nat. unfold hops46.
  destruct hp; cbn [negb andb xbind]; [|destruct (oct m 8 <=? 1) eqn:T; [apply Z.leb_le in T|apply Z.leb_gt in T]; cbn [xbind]].
  - split; [reflexivity|]. split; [discriminate|]. destruct (fragmented4 m 0 || some_next next); reflexivity.
  - right. tauto.
  - split; [reflexivity|]. split; [lia|]. destruct (fragmented4 m 0 || some_next next); reflexivity.
Qed.

Lemma int46_spec reset hp s d m h ih oh out : Forall is_u8 m -> (40 <= length out)%nat ->
  ttp46_ipv6_internal reset hp s d m h ih oh out =
  XOk (written46 reset (fragmented4 m h) m h (oct m (h + 8)) (u16 (u32 (word m (h + 2) - ih + oh - 40))) s d out).
Proof.
  intros F L. unfold ttp46_ipv6_internal. cbv zeta. rewrite xlat_nexthdr_proto. change (byte m (h + 9)) with (oct m (h + 9)).
  rewrite (common46 reset hp true false m h out F L). cbv zeta. cbn [negb andb xbind]. rewrite orb_false_r, be16_word. unfold written46. cbv zeta.
  destruct (fragmented4 m h); reflexivity.
Qed.

Lemma hops46_u8 hp m : Forall is_u8 m -> (hp = false -> 1 < oct m 8) -> is_u8 (hops46 hp m).
Proof. intros F H. pose proof (oct_u8 m 8 F) as U. unfold is_u8, hops46 in *. change (2^8) with 256 in *. destruct hp; [lia|]. specialize (H eq_refl). lia. Qed.
Lemma same_lengths (P : nat -> Prop) : forall (a b : list (list Z)), map (@length Z) a = map (@length Z) b -> Forall (fun o => P (length o)) b -> Forall (fun o => P (length o)) a.
Proof. induction a as [|x a IH]; intros [|y b] E F; try discriminate; constructor; inversion F; subst; cbn in E; inversion E; [congruence|]. apply (IH b); assumption. Qed.
Lemma wf_chain_long os : wf_chain os -> Forall (fun o => (48 <= length o)%nat) os.
Proof. induction os as [|o os IH]; intros W; constructor; destruct W as (W1 & _ & W3); [lia|apply IH, W3]. Qed.

Lemma slow_spec fuel reset hp s d lin m fresh mpl payload r :
  Forall is_u8 m -> Forall is_u8 payload -> (forall i, length (fresh i) = 48%nat) -> (forall i, Forall is_u8 (fresh i)) -> is_u128 s -> is_u128 d ->
  1280 <= mpl < 4294967296 -> mpl - 48 < Z.of_nat (length payload) -> fr4_offset m 0 + Z.of_nat (length payload) <= 65515 ->
  ttp46_ipv6_external fuel reset hp s d lin m (allocate_slow fresh mpl payload) = XOk r ->
  series (tc46 reset m 0) (hops46 hp m) s d (proto46 (oct m 9)) (word m 4) (fr4_more m 0) (fr4_offset m 0) payload r
  /\ Forall (fun o => Z.of_nat (length o) <= mpl) r /\ has_unexpired_src_route fuel lin m 0 = Ok false /\ (hp = false -> 1 < oct m 8).
Proof.
  intros F Fp FL FU Us Ud M LP B. unfold allocate_slow. set (per := Z.to_nat (8 * (u32 (mpl - 48) / 8))).
  assert (PER : Z.of_nat per = 8 * ((mpl - 48) / 8)). { unfold per. rewrite u32_mod, Z.mod_small by lia. lia. }
  assert (PL : payload <> []) by (intros ->; cbn in LP; lia).
  destruct (pieces_spec per ltac:(lia) (length payload) payload (Nat.le_refl _) PL) as (P1 & P2 & P3 & P4).
  destruct (P4 ltac:(lia)) as (p & p2 & ps & PE).
  set (outs := with_headers fresh 0 (pieces (length payload) per payload)).
  assert (CA : carried outs = payload) by (unfold outs; rewrite with_headers_carried by assumption; exact P1).
  assert (WF : wf_chain outs).
  { unfold outs. apply (with_headers_wf fresh (Z.of_nat per)); [assumption|lia| |].
    - eapply Forall_impl; [|exact P2]. cbv beta. lia.
    - intros qs p' q E N. rewrite (P3 _ _ _ E N). reflexivity. }
  assert (LE : Forall (fun o => (length o <= 48 + per)%nat) outs).
  { unfold outs. apply with_headers_len; [assumption|]. eapply Forall_impl; [|exact P2]. cbv beta. lia. }
  assert (O : exists o o2 os, outs = o :: o2 :: os /\ o = fresh 0%nat ++ p).
  { unfold outs. rewrite PE. cbn [with_headers]. eauto. }
  destruct O as (o & o2 & os & OE & OP). rewrite OE. intros X.
  assert (Lo : (48 < length o)%nat) by (rewrite OE in WF; destruct WF; assumption).
  pose proof (ext46_spec fuel reset hp s d lin m o (o2 :: os) F ltac:(lia)) as E. rewrite X in E. destruct E as (E1 & E2 & E3).
  pose proof (hops46_u8 hp m F E2) as HU.
  rewrite OE in WF, LE, CA. destruct WF as (W1 & W2 & W3). 
  assert (PB : (length p <= length payload)%nat). { rewrite <- P1, PE. cbn [concat]. rewrite !app_length. lia. }
  assert (OL : length o = (48 + length p)%nat) by (rewrite OP, app_length, FL; reflexivity).
  pose proof (off4_range m 0 F) as [OR1 OR2].
  assert (LU : u16 (Z.of_nat (length o) - 40) = Z.of_nat (length o) - 40) by (rewrite u16_mod; apply Z.mod_small; lia).
  rewrite LU in E3. change (some_next (o2 :: os)) with true in E3. rewrite orb_true_r in E3.
  assert (Fp1 : Forall is_u8 p). { rewrite <- P1, PE in Fp. cbn [concat] in Fp. apply Forall_app in Fp. tauto. }
  assert (Fo : Forall is_u8 o) by (rewrite OP; apply Forall_app; split; [apply FU|exact Fp1]).
  destruct (written46_spec reset true m 0 (hops46 hp m) (Z.of_nat (length o) - 40) s d o F Fo ltac:(cbv iota; lia) HU ltac:(apply u16_range; lia) Us Ud) as (A1 & A2 & A3 & A4 & A5).
  specialize (A5 eq_refl). set (o' := written46 reset true m 0 (hops46 hp m) (Z.of_nat (length o) - 40) s d o) in *.
  assert (CA' : carried (o' :: o2 :: os) = payload). { rewrite <- CA. unfold carried. cbn [map concat]. rewrite A3. reflexivity. }
  split; [|split; [|split; assumption]].
  - rewrite E3, <- CA'. change (oct m 9) with (oct m (0 + 9)). change (word m 4) with (word m (0 + 4)).
    apply autofill_hdr6_series.
    + discriminate.
    + split; [lia|]. split; [rewrite A1; exact W2|exact W3].
    + rewrite A1. exact A4.
    + exact A5.
    + rewrite CA'. lia.
    + exact A2.
  - rewrite E3. unfold autofill_hdr6. cbv zeta.
    set (o'' := put 42 [byte o' 42; 2 * (byte o' 43 / 2) + 1] o'). assert (L'' : length o'' = length o') by (apply put_length; cbn [length]; lia).
    apply (same_lengths (fun n => Z.of_nat n <= mpl)) with (b := o :: o2 :: os).
    + cbn [map]. f_equal; [lia|]. apply autofill_lengths; [rewrite firstn_length; lia|]. apply wf_chain_long. exact W3.
    + eapply Forall_impl; [|exact LE]. cbv beta. intros a La. lia.
Qed.
