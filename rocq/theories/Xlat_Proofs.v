(** Lemmas about whole packets. *)
Require Import Verif.Base Verif.Pool4_Model Verif.Rtrie_Model Verif.Nat64_Model Verif.Csum_Model Verif.Csum_Spec Verif.Csum_Proofs
  Verif.Csum_Properties Verif.Pkt_Model Verif.Pkt_Spec Verif.Pkt_Proofs Verif.Pkt_Properties
  Verif.Hdr_Model Verif.Hdr_Spec Verif.Hdr_Proofs Verif.Hdr_Properties Verif.Ext_Model Verif.Xlat_Model Verif.Xlat_Spec.
Local Ltac Zify.zify_post_hook ::= Z.div_mod_to_equations.

(** ** Lists *)

Lemma put_app off x a b : (off + length x <= length a)%nat -> put off x (a ++ b) = put off x a ++ b.
Proof.
  intros L. unfold put. rewrite firstn_app, skipn_app. replace (off - length a)%nat with 0%nat by lia.
  replace (off + length x - length a)%nat with 0%nat by lia. cbn [firstn skipn]. rewrite app_nil_r, <- !app_assoc. reflexivity.
Qed.
Lemma firstn_app_l n (a b : list Z) : (n <= length a)%nat -> firstn n (a ++ b) = firstn n a.
Proof. intros L. rewrite firstn_app. replace (n - length a)%nat with 0%nat by lia. cbn. apply app_nil_r. Qed.
Lemma get16_app le off a b : (S (S off) <= length a)%nat -> get16 le off (a ++ b) = get16 le off a.
Proof. intros L. unfold get16. rewrite !app_nth1 by lia. reflexivity. Qed.
Lemma put_head u k (h x seg : list Z) : length h = u -> (k <= length seg)%nat -> length x = length seg ->
  skipn k x = skipn k seg -> put u (firstn k x) (h ++ seg) = h ++ x.
Proof.
  intros U K L S. unfold put. rewrite firstn_app, <- U, firstn_all, Nat.sub_diag. cbn [firstn]. rewrite app_nil_r. f_equal.
  rewrite firstn_length, Nat.min_l by lia. rewrite skipn_app, skipn_all2 by lia. cbn [app].
  replace (length h + k - length h)%nat with k by lia. rewrite <- S. apply firstn_skipn.
Qed.
Lemma skipn_eq k (x y : list Z) : length x = length y -> (forall i, (k <= i)%nat -> nth i x 0 = nth i y 0) -> skipn k x = skipn k y.
Proof.
  intros L H. apply nth_ext with (d := 0) (d' := 0); [rewrite !skipn_length; lia|]. intros n _. rewrite !nth_skipn_add. apply H. lia.
Qed.
Lemma be128_field m o : be128 m o = field m o 16. Proof. reflexivity. Qed.
Lemma be32_field m o : (o + 4 <= length m)%nat -> be32 m o = field m o 4.
Proof.
  intros L. unfold field, be32, be16, byte.
  assert (E : exists l, firstn 4 (skipn o m) = l /\ length l = 4%nat).
  { eexists. split; [reflexivity|]. rewrite firstn_length, skipn_length. lia. }
  destruct E as (l & E & N).
  assert (B : forall i, (i < 4)%nat -> nth (o + i) m 0 = nth i l 0).
  { intros i Hi. rewrite <- E, nth_firstn_lt by lia. rewrite nth_skipn_add. reflexivity. }
  rewrite E. replace (nth o m 0) with (nth (o + 0) m 0) by (f_equal; lia). replace (S o) with (o + 1)%nat by lia. replace (S (o + 2)) with (o + 3)%nat by lia.
  rewrite !B by lia. destruct l as [|a [|b [|c [|d [|]]]]]; try discriminate N. unfold be_of. cbn [fold_left nth]. ring.
Qed.
Lemma oct_skipn n (m : list Z) i : oct (skipn n m) i = oct m (n + i).
Proof. unfold oct. apply nth_skipn_add. Qed.
Lemma word_skipn n (m : list Z) i : word (skipn n m) i = word m (n + i).
Proof. unfold word. rewrite !oct_skipn. replace (n + (i + 1))%nat with (n + i + 1)%nat by lia. reflexivity. Qed.

(** ** Segments *)

Lemma new_ports_app ports a b : (4 <= length a)%nat -> new_ports ports (a ++ b) = new_ports ports a ++ b.
Proof. intros L. unfold new_ports. destruct ports as [[s d]|]; [|reflexivity]. apply put_app. cbn. lia. Qed.
Lemma new_ports_len ports a : (4 <= length a)%nat -> length (new_ports ports a) = length a.
Proof. intros L. unfold new_ports. destruct ports as [[s d]|]; [|reflexivity]. apply put_length. cbn. lia. Qed.
Lemma tcp64_app le s ports s6 d6 s4 d4 seg rest : s <> CS_PARTIAL -> (20 <= length seg)%nat ->
  ttp64_tcp le s ports s6 d6 s4 d4 (seg ++ rest) = ttp64_tcp le s ports s6 d6 s4 d4 seg ++ rest.
Proof.
  intros N L. unfold ttp64_tcp. destruct s; try (elim N; reflexivity); cbn [is_partial];
    rewrite new_ports_app, firstn_app_l, get16_app by lia;
    rewrite (put_app 16 [0; 0]) by (rewrite new_ports_len by lia; cbn; lia);
    (rewrite firstn_app_l by (rewrite put_length; rewrite new_ports_len by lia; cbn [length]; lia));
    (apply put_app; rewrite put_length; rewrite new_ports_len by lia; rewrite ?st16_length; cbn [length]; lia).
Qed.
Lemma udp64_app le s ports s6 d6 s4 d4 seg rest : s <> CS_PARTIAL -> (8 <= length seg)%nat ->
  ttp64_udp le s ports s6 d6 s4 d4 (seg ++ rest) = ttp64_udp le s ports s6 d6 s4 d4 seg ++ rest.
Proof.
  intros N L. unfold ttp64_udp. destruct s; try (elim N; reflexivity); cbn [is_partial];
    rewrite new_ports_app, firstn_app_l, get16_app by lia;
    rewrite (put_app 6 [0; 0]) by (rewrite new_ports_len by lia; cbn; lia);
    (rewrite firstn_app_l by (rewrite put_length; rewrite new_ports_len by lia; cbn [length]; lia));
    (apply put_app; rewrite put_length; rewrite new_ports_len by lia; rewrite ?st16_length; cbn [length]; lia).
Qed.
Lemma tcp46_app le s ports s4 d4 s6 d6 seg next rest : s <> CS_PARTIAL -> (20 <= length seg)%nat ->
  exists seg', ttp46_tcp le s ports s4 d4 s6 d6 seg next = seg' :: next
    /\ ttp46_tcp le s ports s4 d4 s6 d6 (seg ++ rest) [] = [seg' ++ rest].
Proof.
  intros N L. unfold ttp46_tcp. destruct s; try (elim N; reflexivity); cbn [is_partial]; (eexists; split; [reflexivity|]);
    rewrite new_ports_app, firstn_app_l, get16_app by lia;
    rewrite (put_app 16 [0; 0]) by (rewrite new_ports_len by lia; cbn; lia);
    (rewrite firstn_app_l by (rewrite put_length; rewrite new_ports_len by lia; cbn [length]; lia));
    (f_equal; apply put_app; rewrite put_length; rewrite new_ports_len by lia; rewrite ?st16_length; cbn [length]; lia).
Qed.
Lemma udp46_app le s n mf am ports s4 d4 s6 d6 seg next rest : s <> CS_PARTIAL -> (8 <= length seg)%nat -> get16 le 6 seg <> 0 ->
  exists seg', ttp46_udp le s n mf am ports s4 d4 s6 d6 seg next = Some (seg' :: next)
    /\ ttp46_udp le s n mf am ports s4 d4 s6 d6 (seg ++ rest) [] = Some [seg' ++ rest].
Proof.
  intros N L Z. unfold ttp46_udp. rewrite (get16_app le 6 seg rest) by lia. rewrite (proj2 (Z.eqb_neq _ _) Z).
  destruct s; try (elim N; reflexivity); cbn [is_partial negb]; (eexists; split; [reflexivity|]);
    rewrite new_ports_app, firstn_app_l by lia;
    rewrite (put_app 6 [0; 0]) by (rewrite new_ports_len by lia; cbn; lia);
    (rewrite firstn_app_l by (rewrite put_length; rewrite new_ports_len by lia; cbn [length]; lia));
    (do 2 f_equal; apply put_app; rewrite put_length; rewrite new_ports_len by lia; rewrite ?st16_length; cbn [length]; lia).
Qed.

Lemma summed_dec (s : summed) : {s = CS_PARTIAL} + {s <> CS_PARTIAL}.
Proof. destruct s; auto; right; discriminate. Qed.

Definition seg64_of (le : bool) (s : summed) (ports : option (Z * Z)) (s6 d6 s4 d4 p : Z) (seg : list Z) : list Z :=
  if p =? 6 then ttp64_tcp le s ports s6 d6 s4 d4 seg
  else if p =? 17 then ttp64_udp le s ports s6 d6 s4 d4 seg
  else if p =? 58 then echo64 le s6 d6 (option_map fst ports) seg else seg.
Lemma seg64_ok le s ports s6 d6 s4 d4 p seg : datagram seg -> good_ports ports ->
  (p = 6 -> (20 <= length seg)%nat) -> (p = 17 \/ p = 58 -> (8 <= length seg)%nat) ->
  (p = 58 -> oct seg 0 = 128 \/ oct seg 0 = 129) ->
  segment64 (s = CS_PARTIAL) ports s6 d6 s4 d4 p seg (seg64_of le s ports s6 d6 s4 d4 p seg).
Proof.
  intros D G L6 L17 T. unfold segment64, seg64_of.
  split; [|split; [|split]].
  - intros ->. specialize (L6 eq_refl). cbn [Z.eqb Pos.eqb]. split; [apply (C31_tcp64 le s ports s6 d6 s4 d4 seg D L6 G)|]. split.
    + intros E. apply (C31_tcp64 le s ports s6 d6 s4 d4 seg D L6 G). left. exact E.
    + intros N rest DR. rewrite <- tcp64_app by assumption.
      assert (L : (20 <= length (seg ++ rest))%nat) by (rewrite app_length; lia).
      destruct (C31_tcp64 le s ports s6 d6 s4 d4 _ DR L G) as [_ H]. rewrite H. tauto.
  - intros ->. specialize (L17 (or_introl eq_refl)). cbn [Z.eqb Pos.eqb].
    split; [apply (C31_udp64 le s ports s6 d6 s4 d4 seg D L17 G)|]. split; [split|].
    + intros E. apply (C31_udp64 le s ports s6 d6 s4 d4 seg D L17 G). left. exact E.
    + intros N rest DR. rewrite <- udp64_app by assumption.
      assert (L : (8 <= length (seg ++ rest))%nat) by (rewrite app_length; lia).
      destruct (C31_udp64 le s ports s6 d6 s4 d4 _ DR L G) as [_ H]. rewrite H. tauto.
    + exact (C32_udp64 le s ports s6 d6 s4 d4 seg D L17).
  - intros ->. specialize (L17 (or_intror eq_refl)). specialize (T eq_refl). cbn [Z.eqb Pos.eqb].
    assert (GI : good_id (option_map fst ports)) by (destruct ports as [[? ?]|]; [apply G|exact Logic.I]).
    destruct (C33_echo64_partial le s6 d6 (option_map fst ports) seg D L17 GI T) as [(E1 & E2 & E3 & E4 & E5) E6].
    split.
    { unfold oct in *. rewrite E2, E3. destruct T as [T|T]; rewrite T; cbn [Z.eqb Pos.eqb].
      - exists 0, 255, (Some 0). split; [left; reflexivity|]. split; [|reflexivity].
        assert (U : is_u8 (nth 1 seg 0)). { destruct D as [F _]. destruct seg as [|? [|? ?]]; cbn in L17; try lia. cbn. inversion F; subst. inversion H2; assumption. }
        unfold is_u8 in U. change (2^8) with 256 in U. lia.
      - exists 0, 255, (Some 0). split; [right; left; reflexivity|]. split; [|reflexivity].
        assert (U : is_u8 (nth 1 seg 0)). { destruct D as [F _]. destruct seg as [|? [|? ?]]; cbn in L17; try lia. cbn. inversion F; subst. inversion H2; assumption. }
        unfold is_u8 in U. change (2^8) with 256 in U. lia. }
    split; [split; [exact E1|]; split; [exact E4|exact E5]|]. intros X. rewrite E6. split; [intros [A _]; exact A|intros A; split; [exact A|exact X]].
  - intros A B C. rewrite !(proj2 (Z.eqb_neq _ _)) by assumption. reflexivity.
Qed.

Lemma seg64_u8 le s ports s6 d6 s4 d4 p seg : datagram seg -> good_ports ports ->
  (p = 6 -> (20 <= length seg)%nat) -> (p = 17 \/ p = 58 -> (8 <= length seg)%nat) ->
  Forall is_u8 (seg64_of le s ports s6 d6 s4 d4 p seg).
Proof.
  intros D G L6 L8. pose proof D as [F _]. unfold seg64_of.
  destruct (p =? 6) eqn:E6.
  { assert (E : p = 6) by lia. specialize (L6 E). destruct (is_partial s) eqn:P; unfold ttp64_tcp; rewrite P; cbv zeta.
    - destruct (finish4_ok le 16 6 s4 d4 seg (new_ports ports seg) _ eq_refl ltac:(rewrite new_ports_length; lia) (dg_ports _ _ D ltac:(lia))
        ltac:(rewrite new_ports_length; lia) ltac:(lia) eq_refl) as (c & -> & Uc & _). apply put_u8; [apply st16_u8; exact Uc|apply new_ports_u8; exact F].
    - apply put_u8; [|apply put_u8; [apply u8_00|apply new_ports_u8; exact F]]. apply st16_u8.
      apply update64_spec; [apply get16_u16; assumption|apply put_u8; [apply u8_00|apply firstn_u8; assumption]|].
      apply firstn_u8. apply put_u8; [apply u8_00|]. apply new_ports_u8. assumption. }
  destruct (p =? 17) eqn:E17.
  { destruct (udp64_form le s ports s6 d6 s4 d4 seg D ltac:(apply L8; lia)) as (c & -> & U & _). apply put_u8; [apply st16_u8; exact U|apply new_ports_u8; exact F]. }
  destruct (p =? 58) eqn:E58; [|exact F].
  assert (GI : good_id (option_map fst ports)) by (destruct ports as [[? ?]|]; [apply G|exact Logic.I]).
  assert (L : (8 <= length seg)%nat) by (apply L8; lia).
  destruct (echo64_form le s6 d6 (option_map fst ports) seg D L GI) as (c & -> & U & _).
  apply Forall_app. split; [|apply skipn_u8; exact F]. apply put_u8; [apply st16_u8; exact U|].
  set (t := if nth 0 seg 0 =? 128 then 8 else 0). destruct (eh_form t (option_map fst ports) seg) as (_ & _ & _ & X & _); try assumption.
  destruct (nth 0 seg 0 =? 128) in t; subst t; unfold is_u8; change (2^8) with 256; lia.
Qed.
Lemma header4_firstn o o' tos len id df more off ttl pr s d : firstn 20 o' = firstn 20 o ->
  ipv4_header o 0 tos len id df more off ttl pr s d -> ipv4_header o' 0 tos len id df more off ttl pr s d.
Proof.
  intros E. assert (N : forall i, (i < 20)%nat -> oct o' i = oct o i).
  { intros i Hi. unfold oct. rewrite <- (nth_firstn_lt 20 o' i), <- (nth_firstn_lt 20 o i) by lia. rewrite E. reflexivity. }
  assert (FL : forall i, (i + 4 <= 20)%nat -> field o' i 4 = field o i 4).
  { intros i Hi. unfold field. f_equal. rewrite !firstn_skipn_comm. f_equal.
    assert (firstn (i + 4) (firstn 20 o') = firstn (i + 4) (firstn 20 o)) as X by (rewrite E; reflexivity).
    rewrite !firstn_firstn, !Nat.min_l in X by lia. exact X. }
  assert (W : forall i, (i + 2 <= 20)%nat -> word o' i = word o i) by (intros i Hi; unfold word; rewrite !N by lia; reflexivity).
  unfold ipv4_header, df_set, fr4_more, fr4_offset. cbn [Nat.add skipn]. rewrite !N, !W, !FL, E by lia. tauto.
Qed.

(** ** What parsing tells *)

Record view6 (m : list Z) (lin l : nat) (mt : meta) (hs : list (Z * nat)) (p : Z) : Prop := View6 {
  v_packet : packet6 m hs p (l4off mt) (payoff mt);
  v_fh : fhdr mt = fh_of hs;
  v_tcp : l4p mt = TCP <-> p = 6; v_udp : l4p mt = UDP <-> p = 17; v_icmp : l4p mt = ICMP <-> p = 58;
  v_40 : (40 <= l)%nat; v_pay : (payoff mt <= l)%nat; v_lin : (lin <= l <= length m)%nat;
  v_last : hdr_iterator_last l m 0 = Ok (p, l4off mt);
  v_inner : p = 58 -> icmp6_error_type (oct m (l4off mt)) -> exists hs' p' up' pay',
    inner6 m (payoff mt) hs' p' up' pay' /\ (pay' <= l)%nat /\ hdr_iterator_last l m (payoff mt) = Ok (p', up')
}.
Lemma parse_view mem m lin mt l hs p : Forall is_u8 m -> (lin <= length m)%nat -> pkt_init_ipv6 mem m lin = Good (mt, l) ->
  packet6 m hs p (l4off mt) (payoff mt) -> view6 m lin l mt hs p.
Proof.
  intros F L G PK. destruct (C39_parses mem m lin mt l F L G) as (hs' & p' & PK' & H1 & H2 & H3 & H4 & H5 & H6 & H7 & H8 & H9 & H10 & H11).
  pose proof PK as (_ & C & _). pose proof PK' as (_ & C' & _). destruct (chain_det _ _ _ _ _ _ C _ _ _ C') as (-> & -> & _).
  constructor; auto. intros P T. destruct (H11 P T) as (a & b & c & d & e1 & e2 & e3 & _). exists a, b, c, d. auto.
Qed.

Lemma frag_off6_spec m f : frag_off6 m f = fr_offset m f.
Proof. unfold frag_off6, fr_offset. change (be16 m (f + 2)) with (256 * oct m (f + 2) + oct m (S (f + 2))). replace (S (f + 2)) with (f + 2 + 1)%nat by lia.
  fold (word m (f + 2)). lia. Qed.
Lemma first6_spec m mt hs nh p up : chain m nh 40 hs p up -> fhdr mt = fh_of hs -> (first6 m mt = true <-> first_piece m hs).
Proof.
  intros C E. unfold first6, first_piece. rewrite E. unfold fh_of. destruct (where_is 44 hs) as [f|] eqn:W; [|tauto].
  assert (f <> O). { unfold where_is in W. destruct (find _ hs) as [[ty o]|] eqn:X; [|discriminate]. cbn in W. inversion W; subst. apply find_some in X.
    destruct (chain_hdr _ _ _ _ _ _ C ty f (proj1 X)). lia. }
  destruct f as [|f]; [lia|]. rewrite frag_off6_spec, Z.eqb_eq. tauto.
Qed.
Lemma direct_ok lin o n : (o + n <= lin)%nat -> direct lin o n = Ok tt.
Proof. intros L. unfold direct. rewrite (proj2 (Nat.leb_le _ _) L). reflexivity. Qed.

(** Where the transport header ends *)
Lemma packet6_pay m hs p up pay : Forall is_u8 m -> packet6 m hs p up pay -> (40 <= up <= pay)%nat /\ (pay <= length m)%nat.
Proof.
  intros F (_ & C & T & N & L & _). pose proof (chain_le _ _ _ _ _ _ C). split; [|exact L].
  assert (D : first_piece m hs \/ ~ first_piece m hs) by (unfold first_piece; destruct (where_is 44 hs); [lia|tauto]).
  destruct D as [D|D]; [|rewrite (N D); lia]. destruct (T D) as (T1 & T2 & T3).
  destruct (Z.eq_dec p 6); [destruct (T1 e); lia|]. destruct (Z.eq_dec p 17); [rewrite T2 by tauto; lia|]. destruct (Z.eq_dec p 58); [rewrite T2 by tauto; lia|].
  rewrite T3 by tauto. lia.
Qed.

Lemma repushed_skip m up pay : (20 <= up <= pay)%nat -> (pay <= length m)%nat -> repushed [] m pay (20 + (pay - up)) = skipn (up - 20) m.
Proof.
  intros A B. unfold repushed. cbn [app]. rewrite firstn_length, Nat.min_l by lia. replace (pay - (20 + (pay - up)))%nat with (up - 20)%nat by lia.
  rewrite <- (firstn_skipn pay m) at 3. rewrite skipn_app, firstn_length, Nat.min_l by lia. replace (up - 20 - pay)%nat with 0%nat by lia. reflexivity.
Qed.

(** ** IPv6 to IPv4, no error *)

Section out64.
Context (e : env64) (m : list Z) (lin l : nat) (mt : meta) (hs : list (Z * nat)) (p : Z).
Context (F : Forall is_u8 m) (V : view6 m lin l mt hs p).
Let up := l4off mt.
Let pay := payoff mt.

Lemma o_chain : chain m (oct m 6) 40 hs p up.
Proof. destruct V as [PK]. apply PK. Qed.
Lemma o_pay : (40 <= up <= pay)%nat /\ (pay <= length m)%nat.
Proof. destruct V as [PK]. exact (packet6_pay m hs p up pay F PK). Qed.
Lemma o_first : first6 m mt = true <-> first_piece m hs.
Proof. destruct V. eapply first6_spec; [exact o_chain|assumption]. Qed.
Lemma o_proto : xlat_proto l m 0 = XOk (proto64 p).
Proof. destruct V. unfold xlat_proto. rewrite v_last0. reflexivity. Qed.
Lemma o_error : error6 m mt = true <-> p = 58 /\ icmp6_error_type (oct m up).
Proof.
  destruct V. unfold error6. split.
  - destruct (l4p mt) eqn:E; try discriminate. intros H. split; [apply v_icmp0; reflexivity|]. apply err6_iff. exact H.
  - intros [P T]. rewrite (proj2 v_icmp0 P). apply err6_iff. exact T.
Qed.
(* Transport headers which are there in the linear area *)
Lemma o_l4 : first_piece m hs -> (p = 6 -> 5 <= oct m (up + 12) / 16) ->
  (p = 6 -> (up + 20 <= pay)%nat) /\ (p = 17 \/ p = 58 -> (up + 8 <= pay)%nat).
Proof.
  intros FP D. destruct V as [PK]. destruct PK as (_ & _ & T & _). destruct (T FP) as (T1 & T2 & T3).
  split; [intros X; destruct (T1 X); specialize (D X); unfold up, pay in *; lia|intros X; unfold pay; rewrite T2 by exact X; unfold up; lia].
Qed.

Context (P1 : p <> 1) (NE : p = 58 -> ~ icmp6_error_type (oct m up)).
Context (DO : p = 6 -> first_piece m hs -> 5 <= oct m (up + 12) / 16).

Lemma o_icmp_first : p = 58 -> first_piece m hs.
Proof.
  intros X. destruct V as [PK]. destruct PK as (_ & _ & _ & _ & _ & W). destruct (W X) as (W1 & _).
  unfold whole in W1. unfold first_piece. destruct (where_is 44 hs); [tauto|exact Logic.I].
Qed.
Lemma o_err_false : error6 m mt = false.
Proof. destruct (error6 m mt) eqn:X; [|reflexivity]. apply o_error in X. elim (NE (proj1 X) (proj2 X)). Qed.
Lemma echo_type64 t c r : xlat64_icmp_type t c = XOk r -> ~ icmp6_error_type t -> t = 128 \/ t = 129.
Proof.
  unfold xlat64_icmp_type, icmp6_error_type. intros H N.
  destruct (t =? 128) eqn:A; [left; lia|]. destruct (t =? 129) eqn:B; [right; lia|].
  assert (X : t <> 1 /\ t <> 2 /\ t <> 3 /\ t <> 4) by (repeat split; intros ->; apply N; cbn; tauto).
  replace (t =? 1) with false in H by lia. replace (t =? 2) with false in H by lia. replace (t =? 3) with false in H by lia. replace (t =? 4) with false in H by lia.
  cbn in H. discriminate.
Qed.
Lemma o_flow : match compute_flowix64 e l m mt with
  | XOk _ => p = 58 -> oct m up = 128 \/ oct m up = 129
  | XDrop j => p = 58 /\ j = J_UNKNOWN_ICMP6_TYPE /\ forall t c, ~ becomes rules64 (oct m up) (oct m (up + 1)) t c
  | _ => False end.
Proof.
  unfold compute_flowix64. rewrite o_proto. cbn [xbind]. pose proof o_pay as (O1 & O2). destruct V.
  unfold proto64. destruct (p =? 58) eqn:E58.
  - apply Z.eqb_eq in E58. cbn [Z.eqb Pos.eqb orb].
    destruct (o_l4 (o_icmp_first E58)) as [_ L8]; [intros X; lia|]. specialize (L8 (or_intror E58)).
    fold up. rewrite direct_ok by lia. cbn [of_res xbind]. change byte with oct.
    rewrite type64_applied by (apply oct_u8; assumption).
    destruct (applied rules64 (oct m up) (oct m (up + 1))) as [[t c]|] eqn:A.
    + cbn [xbind]. assert (T : oct m up = 128 \/ oct m up = 129).
      { apply (echo_type64 (oct m up) (oct m (up + 1)) (t, c)); [|exact (NE E58)]. rewrite type64_applied by (apply oct_u8; assumption). rewrite A. reflexivity. }
      destruct T as [T|T]; rewrite T; cbn [Z.eqb Pos.eqb orb]; tauto.
    + cbn [xbind]. split; [exact E58|]. split; [reflexivity|]. apply applied_none; [exact disjoint64|exact A].
  - destruct ((p =? 6) || (p =? 17)) eqn:E6.
    + assert (X : p = 6 \/ p = 17) by lia. destruct (x_ports e); [intros; lia|]. destruct (first6 m mt) eqn:FI; [|intros; lia].
      apply o_first in FI. destruct (o_l4 FI (fun x => DO x FI)) as [A B]. fold up.
      rewrite direct_ok by (destruct X as [X|X]; [specialize (A X)|specialize (B (or_introl X))]; fold pay in v_pay0; lia). cbn. intros; lia.
    + replace (p =? 1) with false by lia. intros; lia.
Qed.

Lemma port_id_map : port_id (x_ports e) = option_map fst (x_ports e).
Proof. destruct (x_ports e) as [[? ?]|]; reflexivity. Qed.
Context (GP : good_ports (x_ports e)).
Lemma o_seg : datagram (skipn up m).
Proof.
  split; [apply skipn_u8; exact F|]. destruct V as [PK]. destruct PK as (L & _). pose proof o_pay as (O1 & O2). rewrite skipn_length.
  pose proof (word_u16 m 4 F) as U. unfold is_u16 in U. change (2^16) with 65536 in U. lia.
Qed.
Lemma o_lens : first_piece m hs -> (p = 6 -> (20 <= length (skipn up m))%nat) /\ (p = 17 \/ p = 58 -> (8 <= length (skipn up m))%nat).
Proof.
  intros FP. destruct (o_l4 FP (fun x => DO x FP)) as [A B]. pose proof o_pay as (O1 & O2). rewrite skipn_length.
  split; intros X; [specialize (A X)|specialize (B X)]; lia.
Qed.
Lemma seg64_shape le s ports s6 d6 s4 d4 seg k : segment64 (s = CS_PARTIAL) ports s6 d6 s4 d4 p seg (seg64_of le s ports s6 d6 s4 d4 p seg) ->
  (p = 6 -> (20 <= k)%nat) -> (p = 17 \/ p = 58 -> (8 <= k)%nat) ->
  length (seg64_of le s ports s6 d6 s4 d4 p seg) = length seg /\ skipn k (seg64_of le s ports s6 d6 s4 d4 p seg) = skipn k seg.
Proof.
  intros (A & B & C & D) K6 K8. set (x := seg64_of le s ports s6 d6 s4 d4 p seg) in *.
  destruct (Z.eq_dec p 6) as [E|E6].
  { destruct (A E) as [(S1 & S2 & _) _]. split; [exact S1|]. apply skipn_eq; [exact S1|]. intros i Hi. specialize (K6 E).
    destruct (le_lt_dec (length seg) i) as [O|O]; [rewrite !nth_overflow by lia; reflexivity|apply S2; lia]. }
  destruct (Z.eq_dec p 17) as [E|E17].
  { destruct (B E) as [(S1 & S2 & _) _]. split; [exact S1|]. apply skipn_eq; [exact S1|]. intros i Hi. specialize (K8 (or_introl E)).
    destruct (le_lt_dec (length seg) i) as [O|O]; [rewrite !nth_overflow by lia; reflexivity|apply S2; lia]. }
  destruct (Z.eq_dec p 58) as [E|E58].
  { destruct (C E) as (_ & (S1 & _ & S2) & _). split; [exact S1|]. apply skipn_eq; [exact S1|]. intros i Hi. specialize (K8 (or_intror E)). apply S2. lia. }
  rewrite (D E6 E17 E58). split; reflexivity.
Qed.
Lemma o_step h s6 d6 s4 d4 : first_piece m hs -> length h = 20%nat -> (p = 58 -> oct m up = 128 \/ oct m up = 129) ->
  let seg' := seg64_of (x_le e) (x_sum e) (x_ports e) s6 d6 s4 d4 p (skipn up m) in
  segment64 (x_sum e = CS_PARTIAL) (x_ports e) s6 d6 s4 d4 p (skipn up m) seg' /\
  ttp64_l4 e (x_ports e) s6 d6 s4 d4 l m (l4p mt) up (pay - up) 20 (h ++ skipn up m) = XOk (h ++ seg').
Proof.
  intros FP H T seg'. destruct (o_lens FP) as [L6 L8].
  assert (SG : segment64 (x_sum e = CS_PARTIAL) (x_ports e) s6 d6 s4 d4 p (skipn up m) seg').
  { apply seg64_ok; [exact o_seg|exact GP|exact L6|exact L8|]. intros E. rewrite oct_skipn, Nat.add_0_r. exact (T E). }
  split; [exact SG|]. destruct (o_l4 FP (fun x => DO x FP)) as [A B]. pose proof o_pay as (O1 & O2). destruct V.
  unfold ttp64_l4. destruct (l4p mt) eqn:P.
  - assert (E : p = 6) by (apply v_tcp0; reflexivity). specialize (A E). rewrite direct_ok by (fold pay in v_pay0; lia). cbn [of_res xbind].
    replace (ttp64_tcp _ _ _ _ _ _ _ (skipn up m)) with seg' by (unfold seg', seg64_of; rewrite E; reflexivity).
    destruct (seg64_shape _ _ _ _ _ _ _ _ (Nat.max 20 (pay - up)) SG) as [S1 S2]; [lia|lia|]. fold seg' in S1, S2.
    f_equal. apply put_head; [exact H|rewrite skipn_length; lia|exact S1|exact S2].
  - assert (E : p = 17) by (apply v_udp0; reflexivity). specialize (B (or_introl E)). rewrite direct_ok by (fold pay in v_pay0; lia). cbn [of_res xbind].
    replace (ttp64_udp _ _ _ _ _ _ _ (skipn up m)) with seg' by (unfold seg', seg64_of; rewrite E; reflexivity).
    destruct (seg64_shape _ _ _ _ _ _ _ _ 8 SG) as [S1 S2]; [lia|lia|]. fold seg' in S1, S2.
    f_equal. apply put_head; [exact H|rewrite skipn_length; lia|exact S1|exact S2].
  - assert (E : p = 58) by (apply v_icmp0; reflexivity). specialize (B (or_intror E)). rewrite direct_ok by (fold pay in v_pay0; lia). cbn [of_res xbind].
    replace (echo64 _ _ _ _ (skipn up m)) with seg' by (unfold seg', seg64_of; rewrite E, port_id_map; reflexivity).
    destruct (seg64_shape _ _ _ _ _ _ _ _ 8 SG) as [S1 S2]; [lia|lia|]. fold seg' in S1, S2. change byte with oct.
    assert (X : put 20 (firstn 8 seg') (h ++ skipn up m) = h ++ seg') by (apply put_head; [exact H|rewrite skipn_length; lia|exact S1|exact S2]).
    destruct (T E) as [U|U]; unfold xlat64_icmp_type; rewrite U; cbn [Z.eqb Pos.eqb xbind orb]; rewrite X; reflexivity.
  - assert (N6 : p <> 6) by (intros X; apply v_tcp0 in X; discriminate). assert (N17 : p <> 17) by (intros X; apply v_udp0 in X; discriminate).
    assert (N58 : p <> 58) by (intros X; apply v_icmp0 in X; discriminate). unfold seg', seg64_of. rewrite !(proj2 (Z.eqb_neq _ _)) by assumption. reflexivity.
Qed.

Lemma o_size : (forall mtu, x_mtu e = Some mtu -> 0 <= mtu < 4294967276) ->
  match validate_size (x_mtu e) (error6 m mt) (Skb (Z.of_nat (length m)) (Z.of_nat l) (x_flist e) (x_gso e)) (Z.of_nat up) (Z.of_nat (pay - up)) (first6 m mt) with
  | XOk _ => x_gso e = 0 -> x_flist e = [] -> l = length m -> forall mtu, x_mtu e = Some mtu -> 20 + Z.of_nat (length m - up) <= mtu
  | XIcmp j r i => j = J_PKT_TOO_BIG /\ r = E_FRAG_NEEDED /\ first_piece m hs /\ exists mtu, x_mtu e = Some mtu /\ i = Z.max 1280 (mtu + 20)
      /\ (x_gso e = 0 -> mtu < 20 + Z.of_nat (length m - up))
  | XDrop j => j = J_PKT_TOO_BIG /\ exists mtu, x_mtu e = Some mtu /\ (x_gso e = 0 -> x_flist e = [] -> mtu < 20 + Z.of_nat (length m - up))
  | XUB => False
  end.
Proof.
  intros M. unfold validate_size. rewrite o_err_false. destruct (x_mtu e) as [mtu|] eqn:EM; [|intros; discriminate].
  specialize (M mtu eq_refl). pose proof o_pay as (O1 & O2). pose proof o_seg as (_ & DL). rewrite skipn_length in DL. destruct V. fold pay in v_pay0.
  unfold fragment_exceeds_mtu64. cbn [gso headlen flist]. rewrite !u32_mod.
  assert (FI : first6 m mt = true -> first_piece m hs) by (apply o_first).
  assert (ML : Z.of_nat (length m) < 65536 + 65536) by (destruct v_packet0 as (LL & _); pose proof (word_u16 m 4 F) as U; unfold is_u16 in U; change (2^16) with 65536 in U; lia).
  destruct (x_gso e =? 0) eqn:G; cbn [negb].
  - destruct (mtu <? (Z.of_nat l + (20 - Z.of_nat up)) mod 4294967296) eqn:B.
    + destruct (first6 m mt).
      * split; [reflexivity|]. split; [reflexivity|]. split; [tauto|]. exists mtu. split; [reflexivity|]. split; [lia|]. intros _. lia.
      * split; [reflexivity|]. exists mtu. split; [reflexivity|]. intros _ _. lia.
    + destruct (existsb _ (x_flist e)) eqn:X.
      * split; [reflexivity|]. exists mtu. split; [reflexivity|]. intros _ E. rewrite E in X. discriminate.
      * intros _ _ EL mtu' [= <-]. lia.
  - destruct (mtu <? 20 + Z.of_nat (pay - up) + x_gso e) eqn:B.
    + destruct (first6 m mt).
      * split; [reflexivity|]. split; [reflexivity|]. split; [tauto|]. exists mtu. split; [reflexivity|]. split; [lia|]. intros; lia.
      * split; [reflexivity|]. exists mtu. split; [reflexivity|]. intros; lia.
    + intros; lia.
Qed.

Context (NT : is_u8 (new_tos (x_tos e))) (ID : is_u16 (x_id e)) (US : is_u32 (x_src e)) (UD : is_u32 (x_dst e)).
Context (MT : forall mtu, x_mtu e = Some mtu -> 0 <= mtu < 4294967276).
Lemma o_all :
  match xlat64 e l m mt with
  | XOk o => 1 < oct m 7 /\ routing_done m hs /\ Z.of_nat (length o) = 20 + Z.of_nat (length m - up) /\ Forall is_u8 o
      /\ (x_gso e = 0 -> x_flist e = [] -> l = length m -> forall mtu, x_mtu e = Some mtu -> Z.of_nat (length o) <= mtu)
      /\ (exists big : Prop, (x_gso e = 0 -> x_flist e = [] -> (big <-> 1260 < Z.of_nat (length o))) /\
          ipv4_header o 0 (flow_tos (x_tos e) (tos64 (x_tos e) m 0)) (u16 (Z.of_nat (length o))) (id64 m hs (x_id e))
           (df64 hs big) (more64 m hs) (off64 m hs) (oct m 7 - 1) (proto64 p) (x_src e) (x_dst e))
      /\ (first_piece m hs -> segment64 (x_sum e = CS_PARTIAL) (x_ports e) (field m 8 16) (field m 24 16) (x_src e) (x_dst e) p (skipn up m) (skipn 20 o))
      /\ (~ first_piece m hs -> skipn 20 o = skipn up m)
  | XIcmp j r i => (j = J64_TTL /\ r = E_TTL /\ i = 0 /\ oct m 7 <= 1)
      \/ (j = J64_SEGMENTS_LEFT /\ r = E_HDR_FIELD /\ exists q, where_is 43 hs = Some q /\ oct m (q + 3) <> 0 /\ i = Z.of_nat (q + 3))
      \/ (j = J_PKT_TOO_BIG /\ r = E_FRAG_NEEDED /\ first_piece m hs /\ exists mtu, x_mtu e = Some mtu /\ i = Z.max 1280 (mtu + 20)
          /\ (x_gso e = 0 -> mtu < 20 + Z.of_nat (length m - up)))
  | XDrop j => (j = J_UNKNOWN_ICMP6_TYPE /\ p = 58 /\ forall t c, ~ becomes rules64 (oct m up) (oct m (up + 1)) t c)
      \/ (j = J_PKT_TOO_BIG /\ exists mtu, x_mtu e = Some mtu /\ (x_gso e = 0 -> x_flist e = [] -> mtu < 20 + Z.of_nat (length m - up)))
  | XUB => False
  end.
Proof.
  unfold xlat64, ttp64_alloc_skb. fold up pay. pose proof o_flow as FL. destruct (compute_flowix64 e l m mt) as [[]|j|j r i|]; cbn [xbind]; try (exfalso; exact FL).
  2: { left. tauto. }
  pose proof (o_size MT) as SZ. destruct (validate_size _ _ _ _ _ _) as [[]|j|j r i|]; cbn [xbind].
  2: { right. exact SZ. } 2: { right. right. exact SZ. } 2: { exact SZ. }
  rewrite o_err_false, andb_false_r. cbn [xbind]. pose proof o_pay as (O1 & O2).
  rewrite repushed_skip by lia. set (al := skipn (up - 20) m).
  assert (LA : length al = (20 + (length m - up))%nat) by (unfold al; rewrite skipn_length; lia).
  assert (FA : Forall is_u8 al) by (apply skipn_u8; exact F).
  pose proof (ext64_spec (x_le e) (x_tos e) (x_id e) (x_src e) (x_dst e) (Skb (Z.of_nat (length m)) (Z.of_nat l) (x_flist e) (x_gso e)) l m hs p up (l4p mt)
    (Z.of_nat (20 + (pay - up))) al F FA ltac:(lia) (proj2 (v_lin _ _ _ _ _ _ V)) o_chain ltac:(destruct V; fold pay in v_pay0; lia) NT ID US UD) as X.
  rewrite (v_fh _ _ _ _ _ _ V).
  destruct (ttp64_ipv4_external _ _ _ _ _ _ _ _ _ _ _ _) as [o|j|j r i|]; cbn [xbind]; try (exfalso; exact X).
  2: { destruct X as [X|X]; [left; exact X|right; left; destruct X as (X1 & X2 & _ & X3); split; [exact X1|]; split; [exact X2|exact X3]]. }
  destruct X as (X1 & X2 & X3 & X4 & X5 & X6).
  assert (SK : skipn 20 o = skipn up m).
  { rewrite X5. unfold al. rewrite <- (firstn_skipn (up - 20) m) at 2. rewrite skipn_app. rewrite (skipn_all2 (firstn _ m)) by (rewrite firstn_length; lia).
    cbn [app]. f_equal. rewrite firstn_length. lia. }
  assert (HD : forall o', firstn 20 o' = firstn 20 o -> length o' = length o -> exists big : Prop, (x_gso e = 0 -> x_flist e = [] -> (big <-> 1260 < Z.of_nat (length o'))) /\
          ipv4_header o' 0 (flow_tos (x_tos e) (tos64 (x_tos e) m 0)) (u16 (Z.of_nat (length o'))) (id64 m hs (x_id e))
           (df64 hs big) (more64 m hs) (off64 m hs) (oct m 7 - 1) (proto64 p) (x_src e) (x_dst e)).
  { intros o' E1 E2. eexists. split; [|rewrite E2, X3; apply (header4_firstn o o'); [exact E1|exact X6]].
    intros G1 G2. rewrite E2, X3. unfold generate_df_flag. cbn [flist gso]. rewrite G1, G2. cbn [Z.eqb negb]. lia. }
  assert (FB : first6 m mt = true \/ first6 m mt = false) by (destruct (first6 m mt); auto).
  destruct FB as [FB|FB]; rewrite FB.
  - pose proof (proj1 o_first FB) as FP. rewrite <- (firstn_skipn 20 o), SK, !be128_field.
    assert (L20 : length (firstn 20 o) = 20%nat) by (rewrite firstn_length; lia).
    destruct (o_step (firstn 20 o) (field m 8 16) (field m 24 16) (x_src e) (x_dst e) FP L20 FL) as [S1 S2].
    rewrite S2. clear S2. set (seg' := seg64_of _ _ _ _ _ _ _ _ _) in *.
    destruct (seg64_shape _ _ _ _ _ _ _ _ 20 S1) as [S3 _]; [lia|lia|]. fold seg' in S3. rewrite skipn_length in S3.
    assert (LO : length (firstn 20 o ++ seg') = length o) by (rewrite app_length, L20, S3, X3, LA; lia).
    assert (S4 : skipn 20 (firstn 20 o ++ seg') = seg') by (rewrite skipn_app, L20, skipn_all2 by lia; reflexivity).
    split; [exact X1|]. split; [exact X2|]. split; [lia|]. split; [apply Forall_app; split; [apply firstn_u8; exact X4|]|].
    { destruct (o_lens FP). apply seg64_u8; [exact o_seg|exact GP|assumption|assumption]. }
    split; [intros G1 G2 G3 mtu G4; specialize (SZ G1 G2 G3 mtu G4); lia|].
    split; [apply HD; [rewrite firstn_app_l by lia; rewrite firstn_firstn; reflexivity|exact LO]|].
    rewrite S4. split; [intros _; exact S1|intros N; elim (N FP)].
  - split; [exact X1|]. split; [exact X2|]. split; [lia|]. split; [exact X4|].
    split; [intros G1 G2 G3 mtu G4; specialize (SZ G1 G2 G3 mtu G4); lia|].
    split; [apply HD; reflexivity|]. split; [intros FP; apply o_first in FP; congruence|intros _; exact SK].
Qed.
End out64.
