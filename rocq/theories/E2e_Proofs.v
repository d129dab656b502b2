(** The pieces of C86. *)
Require Import Verif.Base Verif.Addr_Model Verif.Addr_Spec Verif.Addr_Properties Verif.Rtrie_Model Verif.Pool4_Model Verif.Fsm_Model Verif.Bib_Model
  Verif.Rbtree_Model Verif.Rbtree_Properties Verif.Bib_Inv Verif.Bib_Steps Verif.Bib_Fate Verif.Bib_Find Verif.Bib_Add Verif.Bib_Ops Verif.Bib_Hist Verif.Bib_Spec Verif.Bib_Properties Verif.Bib_Filter
  Verif.Nat64_Model Verif.Nat64_Spec Verif.Nat64_Properties Verif.Nat64_Errors.
Require Import Verif.Csum_Model Verif.Csum_Spec Verif.Csum_Proofs Verif.Csum_Properties Verif.Pkt_Model Verif.Pkt_Spec Verif.Pkt_Proofs Verif.Pkt_Properties
  Verif.Hdr_Model Verif.Hdr_Spec Verif.Hdr_Proofs Verif.Hdr_Properties Verif.Ext_Model Verif.Xlat_Model Verif.Xlat_Spec Verif.Xlat_Proofs Verif.Xlat_Proofs46
  Verif.Xlat_Properties Verif.Trip_Spec Verif.Trip_Proofs Verif.E2e_Model Verif.E2e_Spec.
Local Ltac Zify.zify_post_hook ::= idtac.

(** ** Where the address of the mapping is from *)
Definition source (t : tb) (masks : list (Z * Z * bool)) (s6 k : ta) : Prop := (exists st, has t s6 k st) \/ In k (map fst masks).
Lemma served_source : forall p t d masks s6 d6 d4 t' en, served p t d masks s6 d6 d4 t' en -> exists e, en = Session e /\ source t masks s6 (e_src4 e).
Proof.
  intros p t d masks s6 d6 d4 t' en (k & st & e & -> & _ & <- & _ & H & _). exists e. split; [reflexivity|]. destruct H as [(H & _)|(_ & (a & b & E & _) & _)]; [left; eauto|right].
  rewrite E. apply in_or_app. right. left. reflexivity.
Qed.
Lemma tcp6_source : forall c t d masks s6 d6 d4 g now al en t' evs, reachable TCP t -> offers d masks -> sg_syn g = true -> (forall n, In n (queue t) -> q_dst6 n <> d6) ->
  bib_add_tcp6 c t d s6 d6 d4 g now al = Ok (VContinue, en, t', evs) -> exists e, en = Session e /\ source t masks s6 (e_src4 e).
Proof.
  intros c t d out s6 d6 d4 g now al en t' evs R O Hg Hq H. destruct (reach_inv TCP t R) as [I _].
  destruct (bib_add_tcp6_ok c t d s6 d6 d4 g now al I (ex_intro _ out O)) as [(E & Ha)|[(E & B)|(e & v & en1 & t1 & f & t2 & evs2 & devs & E & F & Ed & I2 & _ & _ & Hm)]]; rewrite H in E; try discriminate.
  injection E as <- <- <- _. destruct e as [|x]; [|destruct Hm; discriminate]. destruct (f_sess f) as [sid|] eqn:Ef.
  - destruct Hm as (Eb & s & b & s' & Hs & Hb & Hi & Fd & Nr & K & Sb & _ & X). rewrite Eb in *. cbn [commit_delete_list] in Ed. injection Ed as <- _.
    inversion F as [bid b0 E1 E2 E3 E4 Hb0 Hi0 H6 H2 En Hit|bid sid' Hp E1 E2 E3 E4 U N|Pr E1 E2|x Pr E1 St E2 E3|]; [| |congruence|congruence].
    + rewrite Ef in Hit. destruct Hit as [Hit Kk]. apply nth_error_In in Hit. apply (ibs _ _ I _ _ Hb0) in Hit. destruct Hit as (s0 & Hs0 & Esb). rewrite E1 in *. assert (s0 = s) by congruence. subst s0. subst bid. assert (b0 = b) by congruence. subst b0.
      assert (Y : en = Session (entry_of c TCP b s')).
      { clear -X. destruct (snd (tcp_state_machine (c_handle_rst c) g (entry_of c TCP b s))); destruct X as [X1 X2]; try discriminate; exact X2. }
      subst en. eexists. split; [reflexivity|]. left. exists (b_static b), (s_bib s), b. cbn. auto.
    + exfalso. destruct (u_ex _ _ _ _ _ _ _ _ U) as (t0 & n & b' & _ & _ & _ & Hin & Hd & _). exact (Hq n Hin Hd).
  - rewrite Hg in Hm. destruct Hm as (_ & _ & Hl). exact (served_source _ _ _ _ _ _ _ _ _ (served_linked c TCP t d _ now f out T_TRANS t2 en t' devs I F O Ef Hl I2 Ed)).
Qed.
Lemma session_typed : forall g n s v pr o s1 evs,
  reachable_db s -> usable4 g n -> typed_db s -> v_fam v = V6 -> v_err v = false -> v_l4 v = pr -> v_pr v = pr ->
  (pr = TCP -> sg_syn (v_seg v) = true /\ forall q, In q (queue (d_tcp s)) -> q_dst6 q <> v_dst v) ->
  steps23 g n s v = Ok (Sent V4 o, s1, evs) -> typed4 (o_src o).
Proof.
  intros g n s v pr o s1 evs (Ru & Rt & St & Ri) Us Ty V1 V6 V5 V4 Ht E.
  unfold steps23 in E. unbind E r E1. destruct r as [[[x en] s2] evs2]. destruct x; try discriminate.
  unbind E y E2. destruct y as [[] [u|]]; try discriminate. injection E as E -> -> ->.
  unfold filtering_and_updating in E1. unbind E1 a Ea. destruct a as [a|].
  { exfalso. unfold fu_admit in Ea. rewrite V1, V6 in Ea. destruct (prefix6_contains _ _); [|destruct (negb _)]; congruence. }
  unfold fu_update in E1. rewrite V5, V1 in E1. clear Ea.
  unfold compute_out_tuple in E2. unbind E2 b Eb. destruct b as [[b6 b4]|]; [|discriminate]. rewrite V1, V4 in E2. destruct (rfc6052_6to4 (g_pool6 g) (fst (v_dst v))) as [a4|] eqn:Ex; [|discriminate]. injection E2 as <-. cbn [o_src o_dst].
  assert (Fin : forall masks e, (forall a, In a (map fst masks) -> typed4 a) -> en = Session e -> source (get_table s pr) masks (v_src v) (e_src4 e) -> typed4 b4).
  { intros masks e Hm -> Hs. cbn [find_bib] in Eb. injection Eb as _ <-. destruct Hs as [(st & Hs)|Hs]; [apply (Ty _ _ _ _ Hs)|apply Hm; exact Hs]. }
  assert (Simple : pr <> TCP -> reachable pr (get_table s pr) -> ipv6_simple g n s v = Ok (Continue, en, s1, evs) -> typed4 b4).
  { intros Np R Es. unfold ipv6_simple, xlat_dst_6to4 in Es. rewrite Ex, V4 in Es. unbind Es f Ef. destruct f as [d|]; [|discriminate]. destruct (Us _ _ Ef) as (out & O & Tm).
    destruct (C18_udp_icmp (g_cfg g) pr _ d out (v_src v) (v_dst v) (a4, snd (v_dst v)) (n_now n) (n_al n) R Np O) as (e1 & en1 & t1 & evs1 & Eq & Hm). rewrite Eq in Es. cbn [bind] in Es. destruct e1 as [|z]; [|discriminate].
    injection Es as -> <- ->. destruct (served_source _ _ _ _ _ _ _ _ _ Hm) as (e & Ee & Hs). exact (Fin out e Tm Ee Hs). }
  destruct pr; [|exact (Simple ltac:(discriminate) Ru E1)|destruct (g_drop_info g); [discriminate|]; exact (Simple ltac:(discriminate) Ri E1)|discriminate].
  destruct (Ht eq_refl) as [Hg Hq]. unfold ipv6_tcp, xlat_dst_6to4 in E1. rewrite Ex, V4 in E1. unbind E1 f Ef. destruct f as [d|]; [|discriminate]. destruct (Us _ _ Ef) as (out & O & Tm).
  unbind E1 r Er. destruct r as [[[v1 en1] t1] evs1]. injection E1 as E1 -> <- ->. assert (v1 = VContinue) by (destruct v1; try discriminate; reflexivity). subst v1.
  destruct (tcp6_source _ _ _ _ _ _ _ _ _ _ _ _ _ Rt O Hg Hq Er) as (e & Ee & Hs). exact (Fin out e Tm Ee Hs).
Qed.

(** ** Casts *)
Lemma u32_typed x : is_u32 x -> u32 x = x. Proof. unfold is_u32, u32. intros H. apply Z.mod_small. lia. Qed.
Lemma u16_typed x : is_u16 x -> u16 x = x. Proof. unfold is_u16. intros H. rewrite u16_mod. apply Z.mod_small. lia. Qed.
Lemma u128_typed x : is_u128 x -> u128 x = x. Proof. unfold is_u128, u128. intros H. apply Z.mod_small. lia. Qed.
Lemma u32_u x : is_u32 (u32 x). Proof. unfold is_u32, u32. apply Z.mod_pos_bound. lia. Qed.
Lemma u16_u x : is_u16 (u16 x). Proof. unfold is_u16. rewrite u16_mod. apply Z.mod_pos_bound. lia. Qed.
Lemma u128_u x : is_u128 (u128 x). Proof. unfold is_u128, u128. apply Z.mod_pos_bound. lia. Qed.

(** ** The fields *)
Lemma fields6 : forall mem m lin mt l hs p pr S D, Forall is_u8 m -> (lin <= length m)%nat -> pkt_init_ipv6 mem m lin = Good (mt, l) ->
  packet6 m hs p (l4off mt) (payoff mt) -> first_piece m hs -> (p = 6 -> 5 <= oct m (l4off mt + 12) / 16) -> talk6 m p (l4off mt) pr S D ->
  exists k, fields_at V6 l m mt = Ok k /\ k_fam k = V6 /\ flow k = Some (pr, S, D) /\ (pr = TCP -> is_syn k = bit (oct m (l4off mt + 13)) 1).
Proof.
  intros mem m lin mt l hs p pr S D F L G PK FP DO (A & B & E).
  pose proof (parse_view mem m lin mt l hs p F L G PK) as V. destruct (o_l4 m lin l mt hs p V FP DO) as [L6 L8]. pose proof (o_pay m lin l mt hs p F V) as [[U1 U2] U3].
  destruct V as [_ Vf Vt Vu Vi Vl Vp Vll _ _]. unfold fields_at. rewrite direct_ok by lia. cbn [bind].
  destruct E as [(P & -> & E1 & E2)|[(P & -> & E1 & E2)|(P & T & -> & E1 & E2)]].
  - rewrite (proj2 Vt P). specialize (L6 P). unfold ports_at. rewrite !direct_ok by lia. cbn [bind fst snd]. eexists. split; [reflexivity|]. split; [reflexivity|].
    unfold flow, is_syn. cbn [k_l4 k_src k_dst]. rewrite !be16_word, <- E1, <- E2, !be128_field, <- A, <- B, <- !surjective_pairing. auto.
  - rewrite (proj2 Vu P). specialize (L8 (or_introl P)). unfold ports_at. rewrite !direct_ok by lia. cbn [bind fst snd]. eexists. split; [reflexivity|]. split; [reflexivity|].
    unfold flow, is_syn. cbn [k_l4 k_src k_dst]. rewrite !be16_word, <- E1, <- E2, !be128_field, <- A, <- B, <- !surjective_pairing. split; [reflexivity|discriminate].
  - rewrite (proj2 Vi P). specialize (L8 (or_intror P)). rewrite !direct_ok by lia. cbn [bind]. change (byte m (l4off mt)) with (oct m (l4off mt)).
    assert (X : is_icmp6_info (oct m (l4off mt)) = true) by (unfold is_icmp6_info; destruct T as [<-|[<-|[]]]; reflexivity). rewrite X. cbn [bind]. eexists. split; [reflexivity|]. split; [reflexivity|].
    split; [|discriminate]. unfold flow. cbn [k_l4 k_src k_dst k_fam]. rewrite be16_word, !be128_field, <- A, <- B.
    assert (S = (fst S, word m (l4off mt + 4)) /\ D = (fst D, word m (l4off mt + 4))) as [-> ->] by (destruct S, D; cbn in *; subst; auto). destruct T as [<-|[<-|[]]]; reflexivity.
Qed.
