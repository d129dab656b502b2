(** Lemmas about parsing. *)
Require Import Verif.Base Verif.Rtrie_Model Verif.Pool4_Model Verif.Nat64_Model Verif.Pkt_Model Verif.Pkt_Spec.

Local Ltac Zify.zify_post_hook ::= idtac.

Lemma oct_u8 m i : Forall is_u8 m -> is_u8 (oct m i).
Proof.
  unfold oct. intros H. destruct (Nat.lt_ge_cases i (length m)).
  - rewrite Forall_forall in H. apply H. apply nth_In. lia.
  - rewrite nth_overflow by lia. unfold is_u8. lia.
Qed.

Lemma be16_word m o : be16 m o = word m o.
Proof. unfold be16, word, byte, oct. rewrite Nat.add_1_r. reflexivity. Qed.

Lemma ext_In nh : is_ext nh = true <-> In nh [0; 43; 60].
Proof.
  unfold is_ext. cbn. rewrite !Bool.orb_true_iff, !Z.eqb_eq. intuition.
Qed.

Lemma oct_lt_mul8 z : z - z mod 8 = 8 * (z / 8).
Proof. pose proof (Z.div_mod z 8 ltac:(lia)). lia. Qed.

Lemma frag_off6_offset m f : frag_off6 m f = fr_offset m f.
Proof. unfold frag_off6, fr_offset. rewrite be16_word, oct_lt_mul8. reflexivity. Qed.
Lemma mf6_more m f : mf6 m f = true <-> fr_more m f.
Proof. unfold mf6, fr_more. rewrite be16_word, Z.eqb_eq. reflexivity. Qed.
Lemma frag_off4_offset m q : frag_off4 m q = fr4_offset m q.
Proof. unfold frag_off4, fr4_offset. rewrite be16_word. reflexivity. Qed.
Lemma mf4_more m q : mf4 m q = true <-> fr4_more m q.
Proof. unfold mf4, fr4_more. rewrite be16_word, Z.eqb_eq. reflexivity. Qed.

(** ** The chain *)

(** The end of the loop of summarize_skb6. *)
Definition fin6 (m : list Z) (p : Z) (up fh : nat) (first : bool) : parsed meta :=
  if p =? 6 then
    if first then
      if can_read m up 20 then Good (Meta fh TCP up (up + tcp_hlen m up)) else Bad SKB_TRUNCATED
    else Good (Meta fh TCP up up)
  else if p =? 17 then Good (Meta fh UDP up (if first then up + 8 else up))
  else if p =? 58 then Good (Meta fh ICMP up (if first then up + 8 else up))
  else Good (Meta fh OTHER up up).

Definition fh_of (hs : list (Z * nat)) : nat := match where_is 44 hs with Some f => f | None => 0 end.
Definition firstb (m : list Z) (hs : list (Z * nat)) : bool :=
  match where_is 44 hs with Some f => frag_off6 m f =? 0 | None => true end.

Lemma firstb_iff m hs : firstb m hs = true <-> first_piece m hs.
Proof.
  unfold firstb, first_piece. destruct (where_is 44 hs).
  - rewrite Z.eqb_eq, frag_off6_offset. reflexivity.
  - split; auto.
Qed.

Lemma sum6_upper fuel m p up fh first :
  ~ In p [0; 43; 44; 60] -> sum6 (S fuel) m p up fh first = fin6 m p up fh first.
Proof.
  intros H. cbn [sum6]. unfold fin6.
  destruct (p =? 6) eqn:E6; [reflexivity|]. destruct (p =? 17) eqn:E17; [reflexivity|].
  destruct (p =? 58) eqn:E58; [reflexivity|].
  destruct (p =? 44) eqn:E44; [apply Z.eqb_eq in E44; subst; cbn in H; tauto|].
  destruct (is_ext p) eqn:EE; [|reflexivity].
  apply ext_In in EE. cbn in EE, H. tauto.
Qed.

Lemma chain_not44 m nh off hs p up :
  chain m nh off hs p up -> ~ In p [0; 43; 44; 60].
Proof. induction 1; auto. Qed.

Lemma chain_le m nh off hs p up : chain m nh off hs p up -> (off <= up)%nat.
Proof. induction 1; lia. Qed.

(** Every header of the chain is at least eight octets long. *)
Lemma chain_hdr m nh off hs p up :
  chain m nh off hs p up -> forall ty o, In (ty, o) hs -> (off <= o)%nat /\ (o + 8 <= up)%nat.
Proof.
  induction 1 as [| nh off hs p up H1 H2 H3 IH | off p H1 H2 H3]; intros ty o Hin.
  - destruct Hin.
  - destruct Hin as [Hin|Hin].
    + inversion Hin; subst. apply chain_le in H3. lia.
    + apply IH in Hin. lia.
  - destruct Hin as [Hin|[]]. inversion Hin; subst. lia.
Qed.

Lemma where_cons ty nh off hs : where_is ty ((nh, off) :: hs) = if nh =? ty then Some off else where_is ty hs.
Proof. unfold where_is. cbn. destruct (nh =? ty); reflexivity. Qed.

Lemma where_In ty hs o : where_is ty hs = Some o -> In (ty, o) hs.
Proof.
  unfold where_is. destruct (find _ hs) as [[t x]|] eqn:F; cbn; intros H; inversion H; subst.
  apply find_some in F. cbn in F. destruct F as [F1 F2]. apply Z.eqb_eq in F2. subst. exact F1.
Qed.

Lemma ext_step (b : Z) (off : nat) : is_u8 b -> (off + 8 * Z.to_nat (b + 1) = off + 8 + 8 * Z.to_nat b)%nat.
Proof. unfold is_u8. lia. Qed.

Lemma sum6_chain m nh off hs p up : Forall is_u8 m -> chain m nh off hs p up ->
  forall fuel, (1 <= fuel)%nat -> (length m < off + fuel)%nat ->
  sum6 fuel m nh off 0 true = fin6 m p up (fh_of hs) (firstb m hs).
Proof.
  intros Hm C. induction C as [nh off H | nh off hs p up H1 H2 H3 IH | off p H1 H2 H3]; intros fuel F1 F2;
    (destruct fuel as [|fuel]; [lia|]).
  - rewrite sum6_upper by exact H. reflexivity.
  - cbn [sum6].
    assert (E : is_ext nh = true) by (apply ext_In; exact H1).
    assert (Ne : nh =? 6 = false /\ nh =? 17 = false /\ nh =? 58 = false /\ nh =? 44 = false).
    { cbn in H1. destruct H1 as [<-|[<-|[<-|[]]]]; auto. }
    destruct Ne as (-> & -> & -> & N44). rewrite N44, E. cbn [Nat.eqb negb].
    unfold can_read. destruct (off + 2 <=? length m)%nat eqn:L; [|apply Nat.leb_gt in L; lia].
    change (byte m (off + 1)) with (oct m (off + 1)). change (byte m off) with (oct m off).
    rewrite ext_step by (apply oct_u8; exact Hm). rewrite IH by lia.
    unfold fh_of, firstb. rewrite where_cons. rewrite N44. reflexivity.
  - cbn [sum6 Z.eqb]. change (44 =? 6) with false. change (44 =? 17) with false. change (44 =? 58) with false.
    change (44 =? 44) with true. cbn [Nat.eqb negb].
    unfold can_read. destruct (off + 8 <=? length m)%nat eqn:L; [|apply Nat.leb_gt in L; lia].
    destruct fuel as [|fuel]; [lia|].
    change (byte m off) with (oct m off). rewrite <- H2.
    cbn [Nat.eqb].
    assert (Q : forall fh first, sum6 (S fuel) m p (off + 8) fh first = fin6 m p (off + 8) fh first)
      by (intros; apply sum6_upper; exact H3).
    rewrite Q. reflexivity.
Qed.

(** After a fragment header. *)
Lemma sum6_after fuel m p up fh first : fh <> O ->
  In p [0; 43; 44; 60] -> exists w, sum6 (S fuel) m p up fh first = Bad w.
Proof.
  intros F H. cbn [sum6]. apply Nat.eqb_neq in F.
  cbn in H. destruct H as [<-|[<-|[<-|[<-|[]]]]]; cbn; rewrite F; cbn; eauto.
Qed.

(** Without a chain the packet is dropped; there is always enough fuel. *)
Lemma sum6_or m : Forall is_u8 m -> forall fuel nh off, (1 <= off)%nat -> (1 <= fuel)%nat -> (length m < off + fuel)%nat ->
  (exists hs p up, chain m nh off hs p up)
  \/ (exists w, sum6 fuel m nh off 0 true = Bad w).
Proof.
  intros Hm. induction fuel as [|fuel IH]; intros nh off O1 F1 F2; [lia|].
  destruct (in_dec Z.eq_dec nh [0; 43; 44; 60]) as [Hin|Hn].
  2: { left. do 3 eexists. apply c_upper. exact Hn. }
  destruct (Z.eq_dec nh 44) as [->|N44].
  - destruct (Nat.le_gt_cases (off + 8) (length m)) as [L|L].
    + destruct (in_dec Z.eq_dec (oct m off) [0; 43; 44; 60]) as [Hin'|Hn'].
      * right. cbn [sum6]. change (44 =? 6) with false. change (44 =? 17) with false. change (44 =? 58) with false.
        change (44 =? 44) with true. cbn [Nat.eqb negb]. unfold can_read.
        destruct (off + 8 <=? length m)%nat eqn:LL; [|apply Nat.leb_gt in LL; lia].
        destruct fuel as [|fuel]; [lia|]. apply sum6_after; [lia|exact Hin'].
      * left. do 3 eexists. apply c_frag; [exact L|reflexivity|exact Hn'].
    + right. cbn [sum6]. change (44 =? 6) with false. change (44 =? 17) with false. change (44 =? 58) with false.
      change (44 =? 44) with true. cbn [Nat.eqb negb]. unfold can_read.
      destruct (off + 8 <=? length m)%nat eqn:LL; [apply Nat.leb_le in LL; lia|]. eauto.
  - assert (H1 : In nh [0; 43; 60]) by (cbn in Hin |- *; intuition).
    assert (E : is_ext nh = true) by (apply ext_In; exact H1).
    assert (Ne : nh =? 6 = false /\ nh =? 17 = false /\ nh =? 58 = false /\ nh =? 44 = false).
    { cbn in H1. destruct H1 as [<-|[<-|[<-|[]]]]; auto. }
    destruct Ne as (N6 & N17 & N58 & N44').
    destruct (Nat.le_gt_cases (off + 2) (length m)) as [L|L].
    + destruct (IH (oct m off) (off + 8 + 8 * Z.to_nat (oct m (off + 1)))%nat) as [(hs & p & up & C)|[w W]]; [lia|lia|lia| |].
      * left. exists ((nh, off) :: hs), p, up. apply c_ext; assumption.
      * right. exists w. cbn [sum6]. rewrite N6, N17, N58, N44', E. cbn [Nat.eqb negb]. unfold can_read.
        destruct (off + 2 <=? length m)%nat eqn:LL; [|apply Nat.leb_gt in LL; lia].
        change (byte m (off + 1)) with (oct m (off + 1)). rewrite ext_step by (apply oct_u8; exact Hm). exact W.
    + right. cbn [sum6]. rewrite N6, N17, N58, N44', E. cbn [Nat.eqb negb]. unfold can_read.
      destruct (off + 2 <=? length m)%nat eqn:LL; [apply Nat.leb_le in LL; lia|]. eauto.
Qed.

Lemma chain_det m nh off hs p up : chain m nh off hs p up ->
  forall hs' p' up', chain m nh off hs' p' up' -> hs' = hs /\ p' = p /\ up' = up.
Proof.
  induction 1 as [nh off H | nh off hs p up H1 H2 H3 IH | off p H1 H2 H3]; intros hs' p' up' C.
  - inversion C; subst; auto.
    + exfalso. apply H. cbn in H0 |- *. tauto.
    + exfalso. apply H. cbn. tauto.
  - inversion C; subst.
    + exfalso. apply H. cbn in H1 |- *. tauto.
    + apply IH in H4. destruct H4 as (-> & -> & ->). auto.
    + exfalso. cbn in H1. intuition lia.
  - inversion C; subst; auto.
    + exfalso. apply H. cbn. tauto.
    + exfalso. cbn in H. intuition lia.
Qed.

Definition proto_of (icmp p : Z) : proto := if p =? 6 then TCP else if p =? 17 then UDP else if p =? icmp then ICMP else OTHER.

Lemma proto_of_icmp p : proto_of 58 p = ICMP <-> p = 58.
Proof.
  unfold proto_of. destruct (p =? 6) eqn:A; [apply Z.eqb_eq in A; split; [discriminate|lia]|].
  destruct (p =? 17) eqn:B; [apply Z.eqb_eq in B; split; [discriminate|lia]|].
  destruct (p =? 58) eqn:C; [apply Z.eqb_eq in C; tauto|apply Z.eqb_neq in C; split; [discriminate|tauto]].
Qed.
Lemma proto_of_icmp4 p : proto_of 1 p = ICMP <-> p = 1.
Proof.
  unfold proto_of. destruct (p =? 6) eqn:A; [apply Z.eqb_eq in A; split; [discriminate|lia]|].
  destruct (p =? 17) eqn:B; [apply Z.eqb_eq in B; split; [discriminate|lia]|].
  destruct (p =? 1) eqn:C; [apply Z.eqb_eq in C; tauto|apply Z.eqb_neq in C; split; [discriminate|tauto]].
Qed.

Lemma fin6_good m p up fh first mt :
  fin6 m p up fh first = Good mt <->
  (fhdr mt = fh /\ l4p mt = proto_of 58 p /\ l4off mt = up
   /\ (first = true -> transport_end m 58 p up (payoff mt)) /\ (first = false -> payoff mt = up)).
Proof.
  unfold fin6, proto_of, transport_end, can_read, tcp_hlen. change byte with oct.
  destruct mt as [f1 f2 f3 f4]; cbn [fhdr l4p l4off payoff].
  destruct (p =? 6) eqn:A; [apply Z.eqb_eq in A; subst p|].
  { destruct first.
    - destruct (up + 20 <=? length m)%nat eqn:L; [apply Nat.leb_le in L|apply Nat.leb_gt in L].
      + split.
        * intros H; inversion H; subst. repeat split; try reflexivity; intros; try lia; discriminate.
        * intros (-> & -> & -> & H & _). destruct (H eq_refl) as (Q & _ & _). destruct (Q eq_refl) as [_ ->]. reflexivity.
      + split; [discriminate|]. intros (_ & _ & _ & H & _). destruct (H eq_refl) as (Q & _). specialize (Q eq_refl). lia.
    - split.
      + intros H; inversion H; subst. repeat split; try reflexivity; try discriminate; intros; lia.
      + intros (-> & -> & -> & _ & H). rewrite (H eq_refl). reflexivity. }
  apply Z.eqb_neq in A.
  destruct (p =? 17) eqn:B; [apply Z.eqb_eq in B; subst p|apply Z.eqb_neq in B].
  { split.
    - intros H; inversion H; subst. split; [reflexivity|]. split; [reflexivity|]. split; [reflexivity|].
      split; intros ->; [|reflexivity]. repeat split; intros; try lia.
    - intros (-> & -> & -> & H & H'). destruct first; [|rewrite H' by reflexivity; reflexivity].
      destruct (H eq_refl) as (_ & Q & _). rewrite Q by lia. reflexivity. }
  destruct (p =? 58) eqn:C; [apply Z.eqb_eq in C; subst p|apply Z.eqb_neq in C].
  { split.
    - intros H; inversion H; subst. split; [reflexivity|]. split; [reflexivity|]. split; [reflexivity|].
      split; intros ->; [|reflexivity]. repeat split; intros; try lia.
    - intros (-> & -> & -> & H & H'). destruct first; [|rewrite H' by reflexivity; reflexivity].
      destruct (H eq_refl) as (_ & Q & _). rewrite Q by lia. reflexivity. }
  split.
  - intros H; inversion H; subst. split; [reflexivity|]. split; [reflexivity|]. split; [reflexivity|].
    split; intros _; [|reflexivity]. repeat split; intros; try lia.
  - intros (-> & -> & -> & H & H'). destruct first; [|rewrite H' by reflexivity; reflexivity].
    destruct (H eq_refl) as (_ & _ & Q). rewrite Q by lia. reflexivity.
Qed.

Lemma summarize6_good m q mt : Forall is_u8 m -> (q + 40 <= length m)%nat ->
  summarize_skb6 m q = Good mt <->
  exists hs p, chain m (oct m (q + 6)) (q + 40) hs p (l4off mt)
    /\ fhdr mt = fh_of hs /\ l4p mt = proto_of 58 p
    /\ (first_piece m hs -> transport_end m 58 p (l4off mt) (payoff mt))
    /\ (~ first_piece m hs -> payoff mt = l4off mt).
Proof.
  intros Hm Hq. unfold summarize_skb6, can_read. destruct (q + 6 + 1 <=? length m)%nat eqn:L; [|apply Nat.leb_gt in L; lia].
  change (byte m (q + 6)) with (oct m (q + 6)).
  assert (F : forall hs (b : Prop), (firstb m hs = true -> b) <-> (first_piece m hs -> b)) by (intros; rewrite firstb_iff; reflexivity).
  assert (G : forall hs (b : Prop), (firstb m hs = false -> b) <-> (~ first_piece m hs -> b)).
  { intros. rewrite <- firstb_iff. destruct (firstb m hs); split; intros X Y; try discriminate; auto; apply X; congruence. }
  split.
  - intros H. destruct (sum6_or m Hm (S (length m)) (oct m (q + 6)) (q + 40)) as [(hs & p & up & C)|[w W]]; [lia|lia|lia| |congruence].
    rewrite (sum6_chain _ _ _ _ _ _ Hm C) in H by lia. apply fin6_good in H.
    destruct H as (H1 & H2 & <- & H4 & H5). exists hs, p. split; [exact C|]. split; [exact H1|]. split; [exact H2|]. split; [apply F; exact H4|apply G; exact H5].
  - intros (hs & p & C & H1 & H2 & H3 & H4).
    rewrite (sum6_chain _ _ _ _ _ _ Hm C) by lia. apply fin6_good.
    split; [exact H1|]. split; [exact H2|]. split; [reflexivity|]. split; [apply F; exact H3|apply G; exact H4].
Qed.

Lemma pull_some mem m lin n l : (lin <= length m)%nat -> may_pull mem m lin n = Some l ->
  (lin <= l)%nat /\ (n <= l)%nat /\ (l <= length m)%nat /\ (l <= Nat.max lin n)%nat.
Proof.
  unfold may_pull. intros H. destruct (n <=? lin)%nat eqn:A; [apply Nat.leb_le in A; intros E; inversion E; lia|apply Nat.leb_gt in A].
  destruct (length m <? n)%nat eqn:B; [discriminate|apply Nat.ltb_ge in B]. destruct mem; [|discriminate]. intros E; inversion E; lia.
Qed.

Lemma pull_true m lin n : (lin <= length m)%nat -> (n <= length m)%nat -> exists l, may_pull true m lin n = Some l.
Proof.
  unfold may_pull. intros H1 H2. destruct (n <=? lin)%nat; [eauto|].
  destruct (length m <? n)%nat eqn:B; [apply Nat.ltb_lt in B; lia|]. eauto.
Qed.

Lemma err6_iff t : is_icmp6_error t = true <-> icmp6_error_type t.
Proof. unfold is_icmp6_error, icmp6_error_type. cbn. rewrite !Bool.orb_true_iff, !Z.eqb_eq. intuition. Qed.
Lemma err4_iff t : is_icmp4_error t = true <-> icmp4_error_type t.
Proof. unfold is_icmp4_error, icmp4_error_type. cbn. rewrite !Bool.orb_true_iff, !Z.eqb_eq. intuition. Qed.

Lemma fh_of_0 m nh off hs p up : chain m nh off hs p up -> (1 <= off)%nat ->
  (fh_of hs = 0 <-> where_is 44 hs = None)%nat.
Proof.
  intros C H. unfold fh_of. destruct (where_is 44 hs) as [f|] eqn:W; [|tauto].
  apply where_In in W. apply (chain_hdr _ _ _ _ _ _ C) in W. split; [lia|discriminate].
Qed.

Lemma fh_of_some m nh off hs p up f : chain m nh off hs p up -> where_is 44 hs = Some f -> (off <= f)%nat /\ (f + 8 <= length m)%nat.
Proof.
  induction 1 as [nh off H | nh off hs p up H1 H2 H3 IH | off p H1 H2 H3]; intros W.
  - discriminate.
  - rewrite where_cons in W. destruct (nh =? 44) eqn:E; [apply Z.eqb_eq in E; subst; cbn in H1; intuition lia|].
    apply IH in W. lia.
  - rewrite where_cons in W. cbn in W. inversion W; subst. lia.
Qed.

(** What validate_inner6 and handle_icmp6 test of the fragment header. *)
Lemma frag_test m nh off hs p up : chain m nh off hs p up -> (1 <= off)%nat ->
  negb (fh_of hs =? 0)%nat && negb (can_read m (fh_of hs) 8) = false
  /\ (negb (fh_of hs =? 0)%nat && negb (frag_off6 m (fh_of hs) =? 0) = false <-> first_piece m hs)
  /\ (negb (fh_of hs =? 0)%nat && fragmented6 m (fh_of hs) = false <-> whole m hs).
Proof.
  intros C H. pose proof (fh_of_0 _ _ _ _ _ _ C H) as Z0. unfold first_piece, whole, fh_of in *.
  destruct (where_is 44 hs) as [f|] eqn:W.
  - pose proof (fh_of_some _ _ _ _ _ _ _ C W) as [L1 L2].
    assert (N : (f =? 0)%nat = false) by (apply Nat.eqb_neq; lia). rewrite N. cbn [negb andb].
    unfold can_read, fragmented6. split; [destruct (f + 8 <=? length m)%nat eqn:L; [reflexivity|apply Nat.leb_gt in L; lia]|].
    rewrite frag_off6_offset. split.
    + rewrite Bool.negb_false_iff, Z.eqb_eq. reflexivity.
    + rewrite Bool.orb_false_iff, Bool.negb_false_iff, Z.eqb_eq, <- mf6_more.
      destruct (mf6 m f); intuition congruence.
  - cbn. tauto.
Qed.

Lemma transport_le m icmp p up pay : transport_end m icmp p up pay -> (up <= pay)%nat.
Proof.
  intros (T1 & T2 & T3). destruct (Z.eq_dec p 6) as [E|N6]; [destruct (T1 E); lia|].
  destruct (Z.eq_dec p 17) as [E|N17]; [rewrite T2 by tauto; lia|].
  destruct (Z.eq_dec p icmp) as [E|Ni]; [rewrite T2 by tauto; lia|]. rewrite T3 by assumption. lia.
Qed.

Lemma inner6_good mem m lin q l : Forall is_u8 m -> (lin <= length m)%nat ->
  validate_inner6 mem m lin q = Good l ->
  (lin <= l)%nat /\ (l <= length m)%nat /\ exists hs p up pay, inner6 m q hs p up pay /\ (pay <= l)%nat.
Proof.
  intros Hm Hl. unfold validate_inner6, can_read. change byte with oct.
  destruct (q + 40 <=? length m)%nat eqn:L; [apply Nat.leb_le in L|discriminate]. cbn [negb].
  destruct (oct m q / 16 =? 6) eqn:V; [apply Z.eqb_eq in V|discriminate]. cbn [negb].
  destruct (summarize_skb6 m q) as [mt|w|] eqn:SM; cbn [pbind]; try discriminate.
  apply summarize6_good in SM; [|assumption|lia]. destruct SM as (hs & p & C & F & P & T1 & T2).
  destruct (frag_test _ _ _ _ _ _ C ltac:(lia)) as (Q1 & Q2 & _). unfold can_read in Q1. rewrite F, Q1.
  destruct (negb (fh_of hs =? 0)%nat && negb (frag_off6 m (fh_of hs) =? 0)) eqn:FF; [discriminate|].
  assert (FP : first_piece m hs) by (apply Q2; reflexivity).
  rewrite P.
  set (ic := match proto_of 58 p with ICMP => true | _ => false end).
  assert (IC : ic = true <-> p = 58).
  { rewrite <- proto_of_icmp. unfold ic. destruct (proto_of 58 p); split; congruence. }
  destruct (ic && negb (l4off mt + 8 <=? length m)%nat) eqn:R; [discriminate|].
  destruct (ic && is_icmp6_error (oct m (l4off mt))) eqn:EE; [discriminate|].
  destruct (may_pull mem m lin (payoff mt)) as [l'|] eqn:MP; [|discriminate].
  intros H; inversion H; subst l'. apply pull_some in MP; [|assumption].
  split; [lia|]. split; [lia|]. exists hs, p, (l4off mt), (payoff mt). split; [|lia].
  unfold inner6. repeat (split; [first [assumption | lia | apply T1; assumption]|]).
  intros ->. rewrite (proj2 IC eq_refl) in EE. cbn in EE. rewrite <- err6_iff. congruence.
Qed.

Lemma inner6_complete m lin q hs p up pay : Forall is_u8 m -> (lin <= length m)%nat ->
  inner6 m q hs p up pay -> exists l, validate_inner6 true m lin q = Good l.
Proof.
  intros Hm Hl (L & V & C & FP & T & PL & IE). unfold validate_inner6, can_read. change byte with oct.
  destruct (q + 40 <=? length m)%nat eqn:L'; [|apply Nat.leb_gt in L'; lia]. cbn [negb].
  apply Z.eqb_eq in V. rewrite V. cbn [negb].
  assert (SM : summarize_skb6 m q = Good (Meta (fh_of hs) (proto_of 58 p) up pay)).
  { apply summarize6_good; [assumption|lia|]. cbn. exists hs, p. repeat split; auto; try apply T; auto. tauto. }
  rewrite SM. cbn [pbind fhdr l4p l4off payoff].
  destruct (frag_test _ _ _ _ _ _ C ltac:(lia)) as (Q1 & Q2 & _). unfold can_read in Q1. rewrite Q1, (proj2 Q2 FP).
  destruct (pull_true m lin pay Hl PL) as [l E]. rewrite E.
  destruct (Z.eq_dec p 58) as [->|N].
  - rewrite (proj2 (proto_of_icmp 58) eq_refl). cbn [andb].
    destruct T as (_ & T2 & _). rewrite T2 in PL by tauto.
    destruct (up + 8 <=? length m)%nat eqn:R; [|apply Nat.leb_gt in R; lia]. cbn [negb].
    destruct (is_icmp6_error (oct m up)) eqn:X; [apply err6_iff in X; tauto|]. eauto.
  - assert (G : (match proto_of 58 p with ICMP => true | _ => false end) = false).
    { destruct (proto_of 58 p) eqn:X; auto. apply (proj1 (proto_of_icmp p)) in X. tauto. }
    rewrite G. cbn [andb]. eauto.
Qed.

Lemma whole_first m hs : whole m hs -> first_piece m hs.
Proof. unfold whole, first_piece. destruct (where_is 44 hs); tauto. Qed.

(** ** Acceptance, IPv6 *)
Lemma init6_good mem m lin mt l : Forall is_u8 m -> (lin <= length m)%nat ->
  pkt_init_ipv6 mem m lin = Good (mt, l) ->
  exists hs p, packet6 m hs p (l4off mt) (payoff mt) /\ fhdr mt = fh_of hs /\ l4p mt = proto_of 58 p
    /\ (lin <= l)%nat /\ (40 <= l)%nat /\ (payoff mt <= l)%nat /\ (l <= length m)%nat
    /\ (p = 58 -> icmp6_error_type (oct m (l4off mt)) -> exists hs' p' up' pay', inner6 m (payoff mt) hs' p' up' pay' /\ (pay' <= l)%nat).
Proof.
  intros Hm Hl. unfold pkt_init_ipv6.
  destruct (may_pull mem m lin 40) as [lin1|] eqn:MP; [|discriminate].
  apply pull_some in MP; [|assumption]. destruct MP as (A1 & A2 & A3 & _).
  rewrite be16_word.
  destruct (Z.of_nat (length m) =? 40 + word m 4) eqn:LE; [apply Z.eqb_eq in LE|discriminate]. cbn [negb].
  destruct (summarize_skb6 m 0) as [mt'|w|] eqn:SM; cbn [pbind]; try discriminate.
  apply summarize6_good in SM; [|assumption|lia]. destruct SM as (hs & p & C & F & P & T1 & T2).
  cbn [Nat.add] in C.
  destruct (match l4p mt' with ICMP => handle_icmp6 mem m lin1 mt' | _ => Good lin1 end) as [lin2|w|] eqn:HI; cbn [pbind]; try discriminate.
  destruct (may_pull mem m lin2 (payoff mt')) as [l'|] eqn:MP2; [|discriminate].
  intros H; inversion H; subst mt' l'. clear H.
  assert (HH : (lin1 <= lin2)%nat /\ (lin2 <= length m)%nat /\
     (p = 58 -> whole m hs /\ (l4off mt + 8 <= length m)%nat /\ (icmp6_error_type (oct m (l4off mt)) -> exists hs' p' up' pay', inner6 m (payoff mt) hs' p' up' pay' /\ (pay' <= lin2)%nat))).
  { destruct (Z.eq_dec p 58) as [->|N].
    - rewrite P, (proj2 (proto_of_icmp 58) eq_refl) in HI.
      unfold handle_icmp6, can_read in HI. rewrite F in HI.
      destruct (frag_test _ _ _ _ _ _ C ltac:(lia)) as (Q1 & _ & Q3). unfold can_read in Q1. rewrite Q1 in HI.
      destruct (negb (fh_of hs =? 0)%nat && fragmented6 m (fh_of hs)) eqn:FF; [discriminate|].
      destruct (l4off mt + 8 <=? length m)%nat eqn:R; [apply Nat.leb_le in R|discriminate]. cbn [negb] in HI.
      change byte with oct in HI. destruct (is_icmp6_error (oct m (l4off mt))) eqn:EE.
      + apply inner6_good in HI; [|assumption|lia]. destruct HI as (I1 & I2 & I3). split; [lia|]. split; [lia|]. intros _.
        split; [tauto|]. split; [lia|]. intros _. exact I3.
      + inversion HI; subst. split; [lia|]. split; [lia|]. intros _. split; [tauto|]. split; [lia|].
        intros X. apply err6_iff in X. congruence.
    - assert (G : lin2 = lin1).
      { rewrite P in HI. destruct (proto_of 58 p) eqn:X; try (inversion HI; reflexivity). apply (proj1 (proto_of_icmp p)) in X. tauto. }
      subst. split; [lia|]. split; [lia|]. intros; tauto. }
  destruct HH as (B1 & B2 & B3). apply pull_some in MP2; [|lia].
  exists hs, p. split; [|split; [exact F|split; [exact P|]]].
  - split; [exact LE|]. split; [exact C|]. split; [exact T1|]. split; [exact T2|]. split; [lia|].
    intros E. destruct (B3 E) as (X1 & X2 & X3). split; [exact X1|]. split; [exact X2|]. intros Y.
    destruct (X3 Y) as (h1 & h2 & h3 & h4 & h5 & _). eauto 6.
  - split; [lia|]. split; [lia|]. split; [lia|]. split; [lia|]. intros E Y. destruct (B3 E) as (X1 & X2 & X3).
    destruct (X3 Y) as (h1 & h2 & h3 & h4 & h5 & h6). exists h1, h2, h3, h4. split; [exact h5|lia].
Qed.

Lemma init6_complete m lin hs p up pay : Forall is_u8 m -> (lin <= length m)%nat -> packet6 m hs p up pay ->
  exists l, pkt_init_ipv6 true m lin = Good (Meta (fh_of hs) (proto_of 58 p) up pay, l).
Proof.
  intros Hm Hl (LE & C & T1 & T2 & PL & IC). unfold pkt_init_ipv6.
  assert (W : 0 <= word m 4).
  { unfold word. pose proof (oct_u8 m 4 Hm). pose proof (oct_u8 m (4 + 1) Hm). unfold is_u8 in *. lia. }
  destruct (pull_true m lin 40 Hl ltac:(lia)) as [l1 E1]. rewrite E1.
  apply pull_some in E1; [|assumption]. destruct E1 as (A1 & A2 & A3 & _).
  rewrite be16_word. destruct (Z.of_nat (length m) =? 40 + word m 4) eqn:LE'; [|apply Z.eqb_neq in LE'; lia]. cbn [negb].
  assert (SM : summarize_skb6 m 0 = Good (Meta (fh_of hs) (proto_of 58 p) up pay)).
  { apply summarize6_good; [assumption|lia|]. cbn [l4off fhdr l4p payoff]. exists hs, p. cbn [Nat.add]. auto. }
  rewrite SM. cbn [pbind fhdr l4p l4off payoff].
  assert (HI : exists l2, (match proto_of 58 p with ICMP => handle_icmp6 true m l1 (Meta (fh_of hs) (proto_of 58 p) up pay) | _ => Good l1 end) = Good l2 /\ (l2 <= length m)%nat).
  { destruct (Z.eq_dec p 58) as [->|N].
    - rewrite (proj2 (proto_of_icmp 58) eq_refl). destruct (IC eq_refl) as (W1 & W2 & W3).
      unfold handle_icmp6, can_read. cbn [fhdr l4p l4off payoff].
      destruct (frag_test _ _ _ _ _ _ C ltac:(lia)) as (Q1 & _ & Q3). unfold can_read in Q1. rewrite Q1, (proj2 Q3 W1).
      destruct (up + 8 <=? length m)%nat eqn:R; [|apply Nat.leb_gt in R; lia]. cbn [negb].
      change byte with oct. destruct (is_icmp6_error (oct m up)) eqn:EE.
      + apply err6_iff in EE. destruct (W3 EE) as (h1 & h2 & h3 & h4 & I). destruct (inner6_complete m l1 pay _ _ _ _ Hm ltac:(lia) I) as [l2 E2].
        exists l2. split; [exact E2|]. apply inner6_good in E2; [lia|assumption|lia].
      + exists l1. split; [reflexivity|lia].
    - exists l1. split; [|lia]. destruct (proto_of 58 p) eqn:X; try reflexivity. apply (proj1 (proto_of_icmp p)) in X. tauto. }
  destruct HI as (l2 & -> & L2). cbn [pbind]. destruct (pull_true m l2 pay L2 PL) as [l3 E3]. rewrite E3. eauto.
Qed.

Lemma init6_fuel mem m lin : Forall is_u8 m -> (lin <= length m)%nat -> pkt_init_ipv6 mem m lin <> BadFuel.
Proof.
  intros Hm Hl.
  assert (S1 : forall q, summarize_skb6 m q <> BadFuel).
  { intros q. unfold summarize_skb6, can_read. destruct (q + 6 + 1 <=? length m)%nat eqn:L; [apply Nat.leb_le in L|discriminate].
    destruct (sum6_or m Hm (S (length m)) (byte m (q + 6)) (q + 40)) as [(hs & p & up & C)|[w W]]; [lia|lia|lia| |congruence].
    rewrite (sum6_chain _ _ _ _ _ _ Hm C) by lia. unfold fin6.
    repeat match goal with |- context [if ?b then _ else _] => destruct b end; discriminate. }
  assert (S2 : forall l q, validate_inner6 mem m l q <> BadFuel).
  { intros l q. unfold validate_inner6. destruct (negb _); [discriminate|]. destruct (negb _); [discriminate|].
    destruct (summarize_skb6 m q) eqn:E; cbn [pbind]; [|discriminate|elim (S1 _ E)].
    destruct (_ && _); [discriminate|]. destruct (_ && _); [discriminate|]. destruct (_ && _); [discriminate|].
    destruct (_ && _); [discriminate|]. destruct (may_pull _ _ _ _); discriminate. }
  unfold pkt_init_ipv6. destruct (may_pull _ _ _ _); [|discriminate]. destruct (negb _); [discriminate|].
  destruct (summarize_skb6 m 0) as [mt| |] eqn:E; cbn [pbind]; [|discriminate|elim (S1 _ E)].
  destruct (match l4p mt with ICMP => handle_icmp6 mem m n mt | _ => Good n end) eqn:E2; cbn [pbind]; [destruct (may_pull _ _ _ _); discriminate|discriminate|].
  destruct (l4p mt); try discriminate. unfold handle_icmp6 in E2.
  destruct (_ && _); [discriminate|]. destruct (_ && _); [discriminate|]. destruct (negb _); [discriminate|].
  destruct (is_icmp6_error _); [|discriminate]. elim (S2 _ _ E2).
Qed.

(** ** The iterator *)
Lemma iter_upper lin m p up : ~ In p [0; 43; 44; 60] -> hdr_iterator_next lin m p up = Ok None.
Proof.
  intros H. unfold hdr_iterator_next. destruct (is_ext p) eqn:E; [apply ext_In in E; cbn in E, H; tauto|].
  destruct (p =? 44) eqn:F; [apply Z.eqb_eq in F; subst; cbn in H; tauto|]. reflexivity.
Qed.

Lemma iter_ext lin m nh off : In nh [0; 43; 60] -> (off + 2 <= lin)%nat ->
  hdr_iterator_next lin m nh off = Ok (Some (oct m off, off + 8 + 8 * Z.to_nat (oct m (off + 1)))%nat).
Proof.
  intros H L. unfold hdr_iterator_next, direct. apply ext_In in H. rewrite H.
  destruct (off + 2 <=? lin)%nat eqn:E; [|apply Nat.leb_gt in E; lia]. cbn [bind]. change byte with oct. rewrite Nat.add_1_r. reflexivity.
Qed.

Lemma iter_frag lin m off : (off + 1 <= lin)%nat ->
  hdr_iterator_next lin m 44 off = Ok (Some (oct m off, off + 8)%nat).
Proof.
  intros L. unfold hdr_iterator_next, direct. cbn [is_ext Z.eqb orb].
  change (is_ext 44) with false. change (44 =? 44) with true.
  destruct (off + 1 <=? lin)%nat eqn:E; [|apply Nat.leb_gt in E; lia]. cbn [bind]. reflexivity.
Qed.

Lemma iter_last_chain lin m nh off hs p up : (lin <= length m)%nat -> chain m nh off hs p up -> (up <= lin)%nat ->
  forall fuel, (1 <= fuel)%nat -> (length m < off + fuel)%nat -> iter_last fuel lin m nh off = Ok (p, up).
Proof.
  intros LL C. induction C as [nh off H | nh off hs p up H1 H2 H3 IH | off p H1 H2 H3]; intros U fuel F1 F2;
    (destruct fuel as [|fuel]; [lia|]); cbn [iter_last].
  - rewrite iter_upper by assumption. reflexivity.
  - pose proof (chain_le _ _ _ _ _ _ H3). rewrite iter_ext by (assumption || lia). cbn [bind]. apply IH; lia.
  - rewrite iter_frag by lia. cbn [bind]. destruct fuel as [|fuel]; [lia|]. cbn [iter_last]. rewrite <- H2.
    rewrite iter_upper by assumption. reflexivity.
Qed.

Lemma iter_find_chain lin m nh off hs p up want : (lin <= length m)%nat -> In want [0; 43; 44; 60] -> chain m nh off hs p up -> (up <= lin)%nat ->
  forall fuel, (1 <= fuel)%nat -> (length m < off + fuel)%nat -> iter_find fuel lin m nh off want = Ok (where_is want hs).
Proof.
  intros LL Wn C. induction C as [nh off H | nh off hs p up H1 H2 H3 IH | off p H1 H2 H3]; intros U fuel F1 F2;
    (destruct fuel as [|fuel]; [lia|]); cbn [iter_find].
  - rewrite iter_upper by assumption. destruct (nh =? want) eqn:E; [apply Z.eqb_eq in E; subst; tauto|reflexivity].
  - pose proof (chain_le _ _ _ _ _ _ H3). rewrite where_cons. destruct (nh =? want); [reflexivity|].
    rewrite iter_ext by (assumption || lia). cbn [bind]. apply IH; lia.
  - rewrite where_cons. destruct (44 =? want); [reflexivity|]. rewrite iter_frag by lia. cbn [bind].
    destruct fuel as [|fuel]; [lia|]. cbn [iter_find]. rewrite <- H2, iter_upper by assumption.
    destruct (p =? want) eqn:E; [apply Z.eqb_eq in E; subst want; tauto|reflexivity].
Qed.

Lemma hdr_last lin m h hs p up : (lin <= length m)%nat -> chain m (oct m (h + 6)) (h + 40) hs p up -> (up <= lin)%nat ->
  hdr_iterator_last lin m h = Ok (p, up).
Proof.
  intros LL C U. pose proof (chain_le _ _ _ _ _ _ C). unfold hdr_iterator_last, direct.
  destruct (h + 6 + 1 <=? lin)%nat eqn:E; [|apply Nat.leb_gt in E; lia]. cbn [bind].
  eapply iter_last_chain; eauto; lia.
Qed.
Lemma hdr_find lin m h hs p up want : (lin <= length m)%nat -> In want [0; 43; 44; 60] -> chain m (oct m (h + 6)) (h + 40) hs p up -> (up <= lin)%nat ->
  hdr_iterator_find lin m h want = Ok (where_is want hs).
Proof.
  intros LL Wn C U. pose proof (chain_le _ _ _ _ _ _ C). unfold hdr_iterator_find, direct.
  destruct (h + 6 + 1 <=? lin)%nat eqn:E; [|apply Nat.leb_gt in E; lia]. cbn [bind].
  eapply iter_find_chain; eauto; lia.
Qed.

(** ** IPv4 *)
Lemma pull4 mem m lin n l : (match may_pull mem m lin n with Some l => Good l | None => Bad SKB_TRUNCATED end) = Good l <-> may_pull mem m lin n = Some l.
Proof. destruct (may_pull mem m lin n); split; congruence. Qed.

Lemma ip_hlen_ihl m q : ip_hlen m q = ihl m q.
Proof. reflexivity. Qed.

Lemma inner4_good mem m lin q l : (lin <= length m)%nat ->
  validate_inner4 mem m lin q = Good l ->
  (lin <= l)%nat /\ (l <= length m)%nat /\ exists pay, inner4 m q pay /\ (pay <= l)%nat.
Proof.
  intros Hl. unfold validate_inner4, can_read, tcp_hlen. rewrite ip_hlen_ihl, be16_word, frag_off4_offset. change byte with oct.
  destruct (q + 20 <=? length m)%nat eqn:L; [apply Nat.leb_le in L|discriminate]. cbn [negb].
  destruct (oct m q / 16 =? 4) eqn:V; [apply Z.eqb_eq in V|discriminate]. cbn [negb].
  destruct (ihl m q <? 20)%nat eqn:I; [discriminate|apply Nat.ltb_ge in I].
  destruct (word m (q + 2) <? Z.of_nat (ihl m q)) eqn:TL; [discriminate|apply Z.ltb_ge in TL].
  destruct (fr4_offset m q =? 0) eqn:FO; [apply Z.eqb_eq in FO|discriminate]. cbn [negb].
  intros H.
  assert (K : exists pay, transport_end m 1 (oct m (q + 9)) (q + ihl m q) pay /\ may_pull mem m lin pay = Some l).
  { unfold transport_end.
    destruct (oct m (q + 9) =? 6) eqn:A; [apply Z.eqb_eq in A|apply Z.eqb_neq in A].
    { destruct (q + ihl m q + 20 <=? length m)%nat eqn:R; [apply Nat.leb_le in R|discriminate].
      apply pull4 in H. eexists. split; [|exact H]. repeat split; intros; lia. }
    destruct (oct m (q + 9) =? 17) eqn:B; [apply Z.eqb_eq in B|apply Z.eqb_neq in B].
    { apply pull4 in H. eexists. split; [|exact H]. repeat split; intros; lia. }
    destruct (oct m (q + 9) =? 1) eqn:C; [apply Z.eqb_eq in C|apply Z.eqb_neq in C];
      apply pull4 in H; eexists; (split; [|exact H]); repeat split; intros; lia. }
  destruct K as (pay & T & MP). apply pull_some in MP; [|assumption].
  split; [lia|]. split; [lia|]. exists pay. split; [|lia]. unfold inner4. repeat (split; [first [assumption|lia]|]). lia.
Qed.

Lemma inner4_complete m lin q pay : (lin <= length m)%nat -> inner4 m q pay -> exists l, validate_inner4 true m lin q = Good l.
Proof.
  intros Hl (L & V & I & TL & FO & T & PL). unfold validate_inner4, can_read, tcp_hlen. rewrite ip_hlen_ihl, be16_word, frag_off4_offset. change byte with oct.
  destruct (q + 20 <=? length m)%nat eqn:L'; [|apply Nat.leb_gt in L'; lia]. cbn [negb].
  rewrite V, FO. change (4 =? 4) with true. change (0 =? 0) with true. cbn [negb].
  destruct (ihl m q <? 20)%nat eqn:I'; [apply Nat.ltb_lt in I'; lia|].
  destruct (word m (q + 2) <? Z.of_nat (ihl m q)) eqn:TL'; [apply Z.ltb_lt in TL'; lia|].
  destruct (pull_true m lin pay Hl PL) as [l E]. exists l.
  destruct T as (T1 & T2 & T3).
  destruct (oct m (q + 9) =? 6) eqn:A; [apply Z.eqb_eq in A|apply Z.eqb_neq in A].
  { destruct (T1 A) as [T4 ->]. destruct (q + ihl m q + 20 <=? length m)%nat eqn:R; [|apply Nat.leb_gt in R; lia]. apply pull4. exact E. }
  destruct (oct m (q + 9) =? 17) eqn:B; [apply Z.eqb_eq in B|apply Z.eqb_neq in B].
  { rewrite <- T2 by tauto. apply pull4. exact E. }
  destruct (oct m (q + 9) =? 1) eqn:C; [apply Z.eqb_eq in C|apply Z.eqb_neq in C].
  { rewrite <- T2 by tauto. apply pull4. exact E. }
  rewrite <- T3 by tauto. apply pull4. exact E.
Qed.

Definition icmp4_ok (m : list Z) (p : Z) (up pay l : nat) : Prop :=
  p = 1 -> fr4_offset m 0 = 0 /\ ~ fr4_more m 0 /\ (up + 8 <= length m)%nat
      /\ (icmp4_error_type (oct m up) -> exists pay', inner4 m pay pay' /\ (pay' <= l)%nat).

Lemma summarize4_good mem m lin mt l : (lin <= length m)%nat ->
  summarize_skb4 mem m lin = Good (mt, l) ->
  fhdr mt = O /\ l4p mt = proto_of 1 (oct m 9) /\ l4off mt = ihl m 0
  /\ (fr4_offset m 0 = 0 -> transport_end m 1 (oct m 9) (l4off mt) (payoff mt))
  /\ (fr4_offset m 0 <> 0 -> payoff mt = l4off mt)
  /\ (lin <= l)%nat /\ (l <= length m)%nat /\ icmp4_ok m (oct m 9) (l4off mt) (payoff mt) l.
Proof.
  intros Hl. unfold summarize_skb4, can_read, tcp_hlen, transport_end, proto_of, icmp4_ok. rewrite ip_hlen_ihl, frag_off4_offset. change byte with oct.
  destruct (oct m 9 =? 6) eqn:A; [apply Z.eqb_eq in A|apply Z.eqb_neq in A].
  { destruct (fr4_offset m 0 =? 0) eqn:FO; [apply Z.eqb_eq in FO|apply Z.eqb_neq in FO].
    - destruct (ihl m 0 + 20 <=? length m)%nat eqn:R; [apply Nat.leb_le in R|discriminate].
      intros H; inversion H; subst. cbn [fhdr l4p l4off payoff]. repeat split; intros; try lia; try reflexivity; try tauto.
    - intros H; inversion H; subst. cbn [fhdr l4p l4off payoff]. repeat split; intros; try lia; try reflexivity; try tauto. }
  destruct (oct m 9 =? 17) eqn:B; [apply Z.eqb_eq in B|apply Z.eqb_neq in B].
  { intros H; inversion H; subst. cbn [fhdr l4p l4off payoff].
    destruct (fr4_offset m 0 =? 0) eqn:FO; [apply Z.eqb_eq in FO|apply Z.eqb_neq in FO]; repeat split; intros; try lia; try reflexivity; try tauto. }
  destruct (oct m 9 =? 1) eqn:C; [apply Z.eqb_eq in C|apply Z.eqb_neq in C].
  2: { intros H; inversion H; subst. cbn [fhdr l4p l4off payoff]. repeat split; intros; try lia; try reflexivity; try tauto. }
  unfold handle_icmp4, fragmented4, can_read. cbn [l4off payoff]. rewrite frag_off4_offset. change byte with oct.
  destruct (fr4_offset m 0 =? 0) eqn:FO; [apply Z.eqb_eq in FO|discriminate]. cbn [negb orb].
  destruct (mf4 m 0) eqn:MF; [discriminate|].
  destruct (ihl m 0 + 8 <=? length m)%nat eqn:R; [apply Nat.leb_le in R|discriminate]. cbn [negb].
  assert (NM : ~ fr4_more m 0) by (rewrite <- mf4_more; congruence).
  destruct (is_icmp4_error (oct m (ihl m 0))) eqn:EE.
  - destruct (validate_inner4 mem m lin (ihl m 0 + 8)) as [l'| |] eqn:VI; cbn [pbind]; try discriminate.
    intros H; inversion H; subst. cbn [fhdr l4p l4off payoff]. apply inner4_good in VI; [|assumption]. destruct VI as (V1 & V2 & V3).
    split; [reflexivity|]. split; [reflexivity|]. split; [reflexivity|]. split; [intros _; repeat split; intros; lia|]. split; [tauto|].
    split; [lia|]. split; [lia|]. intros _. split; [assumption|]. split; [assumption|]. split; [lia|]. intros _. exact V3.
  - cbn [pbind]. intros H; inversion H; subst. cbn [fhdr l4p l4off payoff].
    split; [reflexivity|]. split; [reflexivity|]. split; [reflexivity|]. split; [intros _; repeat split; intros; lia|]. split; [tauto|].
    split; [lia|]. split; [lia|]. intros _. split; [assumption|]. split; [assumption|]. split; [lia|]. intros X. apply err4_iff in X. congruence.
Qed.

Lemma init4_good mem m lin mt l : (lin <= length m)%nat ->
  pkt_init_ipv4 mem m lin = Good (mt, l) ->
  packet4 m (oct m 9) (l4off mt) (payoff mt) /\ fhdr mt = O /\ l4p mt = proto_of 1 (oct m 9)
  /\ (lin <= l)%nat /\ (20 <= l)%nat /\ (payoff mt <= l)%nat /\ (l <= length m)%nat /\ icmp4_ok m (oct m 9) (l4off mt) (payoff mt) l.
Proof.
  intros Hl. unfold pkt_init_ipv4. destruct (may_pull mem m lin 20) as [l1|] eqn:MP; [|discriminate].
  apply pull_some in MP; [|assumption]. destruct MP as (A1 & A2 & A3 & _).
  destruct (summarize_skb4 mem m l1) as [[mt' l2]| |] eqn:SM; cbn [pbind fst snd]; try discriminate.
  destruct (may_pull mem m l2 (payoff mt')) as [l3|] eqn:MP2; [|discriminate].
  intros H; inversion H; subst. apply summarize4_good in SM; [|lia].
  destruct SM as (S1 & S2 & S3 & S4 & S5 & S6 & S7 & S8). apply pull_some in MP2; [|lia].
  assert (S9 : icmp4_ok m (oct m 9) (l4off mt) (payoff mt) l).
  { intros E. destruct (S8 E) as (X1 & X2 & X3 & X4). split; [exact X1|]. split; [exact X2|]. split; [exact X3|]. intros Y.
    destruct (X4 Y) as (z & Z1 & Z2). exists z. split; [exact Z1|lia]. }
  split.
  - unfold packet4. split; [lia|]. split; [reflexivity|]. split; [exact S3|]. split; [exact S4|]. split; [exact S5|]. split; [lia|].
    intros E. destruct (S8 E) as (X1 & X2 & X3 & X4). split; [exact X1|]. split; [exact X2|]. split; [exact X3|]. intros Y.
    destruct (X4 Y) as (z & Z1 & Z2). exists z. exact Z1.
  - repeat (split; [first [assumption|lia]|]). exact S9.
Qed.

Lemma init4_complete m lin p up pay : (lin <= length m)%nat -> packet4 m p up pay ->
  exists l, pkt_init_ipv4 true m lin = Good (Meta 0 (proto_of 1 p) up pay, l).
Proof.
  intros Hl (L & -> & -> & T1 & T2 & PL & IC). unfold pkt_init_ipv4.
  destruct (pull_true m lin 20 Hl L) as [l1 E1]. rewrite E1. apply pull_some in E1; [|assumption]. destruct E1 as (A1 & A2 & A3 & _).
  assert (SM : exists l2, summarize_skb4 true m l1 = Good (Meta 0 (proto_of 1 (oct m 9)) (ihl m 0) pay, l2) /\ (l2 <= length m)%nat).
  { unfold summarize_skb4, can_read, tcp_hlen, proto_of. rewrite ip_hlen_ihl, frag_off4_offset. change byte with oct. unfold transport_end in T1.
    destruct (oct m 9 =? 6) eqn:A; [apply Z.eqb_eq in A|apply Z.eqb_neq in A].
    { exists l1. split; [|lia]. destruct (fr4_offset m 0 =? 0) eqn:FO; [apply Z.eqb_eq in FO|apply Z.eqb_neq in FO].
      - destruct (T1 FO) as (Q & _ & _). destruct (Q A) as [Q1 ->].
        destruct (ihl m 0 + 20 <=? length m)%nat eqn:R; [|apply Nat.leb_gt in R; lia]. reflexivity.
      - rewrite T2 by assumption. reflexivity. }
    destruct (oct m 9 =? 17) eqn:B; [apply Z.eqb_eq in B|apply Z.eqb_neq in B].
    { exists l1. split; [|lia]. destruct (fr4_offset m 0 =? 0) eqn:FO; [apply Z.eqb_eq in FO|apply Z.eqb_neq in FO].
      - destruct (T1 FO) as (_ & Q & _). rewrite Q by tauto. reflexivity.
      - rewrite T2 by assumption. reflexivity. }
    destruct (oct m 9 =? 1) eqn:C; [apply Z.eqb_eq in C|apply Z.eqb_neq in C].
    2: { exists l1. split; [|lia]. destruct (Z.eq_dec (fr4_offset m 0) 0) as [FO|FO].
         - destruct (T1 FO) as (_ & _ & Q). rewrite Q by tauto. reflexivity.
         - rewrite T2 by assumption. reflexivity. }
    destruct (IC C) as (X1 & X2 & X3 & X4). rewrite X1. change (0 =? 0) with true. cbn iota.
    destruct (T1 X1) as (_ & Q & _). rewrite Q in X4 |- * by tauto.
    unfold handle_icmp4, fragmented4, can_read. cbn [l4off payoff]. rewrite frag_off4_offset, X1. change (0 =? 0) with true. change byte with oct. cbn [negb orb].
    destruct (mf4 m 0) eqn:MF; [apply mf4_more in MF; tauto|].
    destruct (ihl m 0 + 8 <=? length m)%nat eqn:R; [|apply Nat.leb_gt in R; lia]. cbn [negb].
    destruct (is_icmp4_error (oct m (ihl m 0))) eqn:EE; [|exists l1; split; [reflexivity|lia]].
    apply err4_iff in EE. destruct (X4 EE) as (pay' & In4). destruct (inner4_complete m l1 _ _ ltac:(lia) In4) as [l2 E2].
    exists l2. rewrite E2. split; [reflexivity|]. apply inner4_good in E2; lia. }
  destruct SM as (l2 & -> & L2). cbn [pbind fst snd payoff]. destruct (pull_true m l2 pay L2 PL) as [l3 E3]. rewrite E3. eauto.
Qed.

(** ** Options *)
Lemma src_route_ok m fin : Forall is_u8 m -> forall cur, options m fin cur -> (cur < fin)%nat ->
  forall fuel, (fin < cur + fuel)%nat -> exists b, src_route fuel fin m cur fin = Ok b
  /\ (b = true -> exists o, at_opt m fin cur o /\ source_route m o /\ unexpired m o)
  /\ (b = false -> forall o, at_opt m fin cur o -> source_route m o ->
        (exists o', (o' <= o)%nat /\ at_opt m fin cur o' /\ source_route m o' /\ ~ unexpired m o')).
Proof.
  intros Hm. induction 1 as [| cur H1 H2 | cur H1 H2 H3 IH | cur H0 H1 H2 H3 H4 H5 H6 IH]; intros LT fuel F; [lia| | |];
    (destruct fuel as [|fuel]; [lia|]); cbn [src_route]; unfold direct; change byte with oct;
    (destruct (cur + 1 <=? fin)%nat eqn:D; [|apply Nat.leb_gt in D; lia]); cbn [bind].
  - rewrite H2. cbn. eexists. split; [reflexivity|]. split; [discriminate|]. intros _ o A SR.
    exfalso. unfold source_route in SR. inversion A; subst; try lia; rewrite H2 in SR; cbn in SR; lia.
  - rewrite H2. change ((1 =? 131) || (1 =? 137)) with false. change (1 =? 0) with false. change (1 =? 1) with true. cbn iota. cbn [bind].
    destruct (fin <=? cur + 1)%nat eqn:E; [apply Nat.leb_le in E|apply Nat.leb_gt in E].
    + eexists. split; [reflexivity|]. split; [discriminate|]. intros _ o A SR. exfalso. inversion A; subst; try lia.
      * unfold source_route in SR. rewrite H2 in SR. cbn in SR. lia.
      * inversion H4; subst; lia.
    + destruct (IH ltac:(lia) fuel ltac:(lia)) as (b & B1 & B2 & B3). exists b. split; [exact B1|]. split.
      * intros X. destruct (B2 X) as (o & O1 & O2). exists o. split; [apply a_nop; assumption|assumption].
      * intros X o A SR. inversion A; subst; try lia.
        { unfold source_route in SR. rewrite H2 in SR. cbn in SR. lia. }
        destruct (B3 eq_refl o H4 SR) as (o' & Q1 & Q2 & Q3). exists o'. split; [lia|]. split; [apply a_nop; assumption|assumption].
  - assert (U : is_u8 (oct m (cur + 1))) by (apply oct_u8; exact Hm).
    destruct ((oct m cur =? 131) || (oct m cur =? 137)) eqn:SRB.
    + assert (SR : In (oct m cur) [131; 137]).
      { apply Bool.orb_true_iff in SRB. rewrite !Z.eqb_eq in SRB. cbn. lia. }
      specialize (H4 SR). destruct (cur + 1 + 2 <=? fin)%nat eqn:D2; [|apply Nat.leb_gt in D2; lia]. cbn [bind].
      eexists. split; [reflexivity|]. split.
      * intros X. apply Z.leb_le in X. exists cur. split; [apply a_here; lia|]. split; [exact SR|exact X].
      * intros X o A _. apply Z.leb_gt in X. exists cur. split; [|split; [apply a_here; lia|split; [exact SR|unfold unexpired; lia]]].
        clear - A. induction A; lia.
    + assert (SR : ~ In (oct m cur) [131; 137]).
      { apply Bool.orb_false_iff in SRB. rewrite !Z.eqb_neq in SRB. cbn. lia. }
      destruct (oct m cur =? 0) eqn:Z0; [apply Z.eqb_eq in Z0; lia|]. destruct (oct m cur =? 1) eqn:Z1; [apply Z.eqb_eq in Z1; lia|].
      destruct (cur + 1 + 1 <=? fin)%nat eqn:D2; [|apply Nat.leb_gt in D2; lia]. cbn [bind].
      destruct (fin <=? cur + Z.to_nat (oct m (cur + 1)))%nat eqn:E; [apply Nat.leb_le in E|apply Nat.leb_gt in E].
      * eexists. split; [reflexivity|]. split; [discriminate|]. intros _ o A SR'. exfalso. inversion A; subst; try lia.
        { tauto. } inversion H9; subst; lia.
      * destruct (IH ltac:(lia) fuel ltac:(lia)) as (b & B1 & B2 & B3). exists b. split; [exact B1|]. split.
        { intros X. destruct (B2 X) as (o & O1 & O2). exists o. split; [apply a_opt; assumption || lia|assumption]. }
        intros X o A SR'. inversion A; subst; try lia; try tauto.
        destruct (B3 eq_refl o H9 SR') as (o' & Q1 & Q2 & Q3). exists o'. split; [lia|]. split; [apply a_opt; assumption || lia|assumption].
Qed.
