(** C92 for hairpinned segments: the second pass, the receiver's. *)
Require Import Verif.Base Verif.Addr_Model Verif.Addr_Spec Verif.Addr_Properties Verif.Rtrie_Model Verif.Pool4_Model Verif.Fsm_Model Verif.Fsm_Spec Verif.Fsm_Properties Verif.Bib_Model
  Verif.Bib_Spec Verif.Bib_Properties Verif.Bib_Filter Verif.Nat64_Model Verif.Nat64_Spec Verif.Nat64_Properties Verif.Nat64_Pool4 Verif.Nat64_Cases Verif.Pkt_Model Verif.Pkt_Spec Verif.E2e_Model Verif.E2e_Spec Verif.E2e_Proofs Verif.E2e_Tcp Verif.E2e_Cases Verif.E2e_TcpCases.
Local Ltac Zify.zify_post_hook ::= idtac.

(** The node at [A6], which has [B4], writes to the node at [S6], which has [S4], through the translator. The receiver's connection does what RFC 6146 asks for when a segment
    with those flags comes from the IPv4 side; the flags are those in the octets of the IPv6 packet. Missing: as in [C92_4_partial]; and the sender's
    own connection, which the first pass drives. *)
Theorem C92_hairpin_partial : forall g n2 s m mt l kk A6 D6 v B4 S6 S4 q k time st x s' evs,
  reachable_db s -> pool6_ok g -> fields_at V6 l m mt = Ok kk -> k_fam kk = V6 -> flow kk = Some (TCP, A6, D6) -> determine_in_tuple kk = (Continue, Some v) ->
  is_u32 (fst B4) -> pool4db_contains (g_pool4 g) (n_ifas n2) TCP (fst S4) (snd S4) = Ok true -> ~ In false (n_al n2) ->
  connection (d_tcp s) S6 S4 B4 q k time st ->
  steps23 g n2 s (hairpin_view v (Out B4 S4)) = Ok (x, s', evs) ->
  exists sg, flags_of V4 m (l4off mt) sg /\ d_udp s' = d_udp s /\ d_icmp s' = d_icmp s /\
    ((x = Refused Dropped /\ repeated sg q st /\ connection (d_tcp s') S6 S4 B4 q k time st) \/
     ((exists o, x = Sent V6 o) /\ ~ repeated sg q st /\ driven (c_handle_rst (g_cfg g)) sg (n_now n2) S6 S4 B4 q k time st (d_tcp s'))).
Proof.
  intros g n2 s m mt l kk A6 D6 v B4 S6 S4 q k time st x s' evs R P6 Ek Hf Fl Dv UD Hp Ha C Es.
  destruct (fields_flags V6 l m mt kk A6 D6 Ek Hf Fl) as (sg0 & Ev & Hg). rewrite Dv in Ev. injection Ev as ->.
  exists (Seg V4 (sg_syn sg0) (sg_fin sg0) (sg_rst sg0)). split; [destruct Hg as (_ & G); split; [reflexivity|exact G]|].
  unfold hairpin_view in Es. cbn [v_fam flip v_l4 v_err v_seg v_pr o_src o_dst] in Es.
  set (sg := Seg V4 _ _ _) in *. set (v := View V4 _ _ _ _ _ _ _ _) in Es.
  destruct P6 as (Wt & fo & P). destruct (C01_rfc6052_roundtrip _ _ _ Wt P UD) as (a6 & Ea & _).
  unfold steps23 in Es. unbind Es y Ef. unfold filtering_and_updating in Ef. unbind Ef a Ead. unfold fu_admit in Ead. cbn [v v_fam v_pr v_dst v_err] in Ead. rewrite Hp in Ead. cbn [bind negb] in Ead. injection Ead as <-.
  unfold fu_update in Ef. cbn [v v_l4 v_fam] in Ef. unfold ipv4_tcp, xlat_src_4to6 in Ef. cbn [v v_src v_dst v_seg fst] in Ef. rewrite Ea in Ef.
  unbind Ef z Eb. destruct z as [[[vd en] t] e2]. injection Ef as <-.
  destruct R as (_ & Rt & _ & _).
  destruct (tcp4_driven _ _ _ _ _ _ _ _ _ _ _ _ _ _ _ _ _ _ Rt Ha C Eb) as [(-> & Rp & C')|((-> & en0 & ->) & Nr & Dr)]; cbn [of_verdict] in Es.
  - injection Es as <- <- <-. split; [reflexivity|]. split; [reflexivity|]. left. auto.
  - unbind Es y Eo. assert (Y : exists o', y = (Continue, Some o')).
    { unfold compute_out_tuple, find_bib in Eo. cbn [bind] in Eo. cbn [v v_fam v_src v_pr] in Eo. rewrite Ea in Eo. injection Eo as <-. eexists. reflexivity. }
    destruct Y as (o' & ->). injection Es as <- <- <-. split; [reflexivity|]. split; [reflexivity|]. right. split; [eexists; reflexivity|]. auto.
Qed.
Print Assumptions C92_hairpin_partial.

(** The octets have FIN and ACK (17), and RST (4): the connection of the node at [A6] ends as if the peer had ended it. *)
Definition second_pass (flags : Z) : res (outcome * db * list ev) :=
  match pkt_init_ipv6 true (seg6 flags) 60 with
  | Good (mt, l) =>
    let! k := fields_at V6 l (seg6 flags) mt in
    match determine_in_tuple k with (Continue, Some v) => steps23 nat64 (world 9) answered (hairpin_view v (Out D4 S4)) | _ => UB end
  | _ => UB
  end.
Example C92_hairpin_case : reachable_db answered /\ pool6_ok nat64 /\ is_u32 (fst D4) /\ pool4db_contains (g_pool4 nat64) (n_ifas (world 9)) TCP (fst S4) (snd S4) = Ok true /\ ~ In false (n_al (world 9))
  /\ connection (d_tcp answered) A6 S4 D4 Established T_EST 5 false
  /\ (exists mt l kk v, pkt_init_ipv6 true (seg6 17) 60 = Good (mt, l) /\ fields_at V6 l (seg6 17) mt = Ok kk /\ k_fam kk = V6 /\ flow kk = Some (TCP, A6, D6) /\ determine_in_tuple kk = (Continue, Some v) /\ l4off mt = 40%nat)
  /\ match second_pass 17 with Ok (Sent V6 _, s, _) => connection (d_tcp s) A6 S4 D4 V4Fin T_EST 5 false | _ => False end
  /\ match second_pass 4 with Ok (Sent V6 _, s, _) => connection (d_tcp s) A6 S4 D4 Trans T_TRANS 9 false | _ => False end
  /\ match second_pass 16 with Ok (Sent V6 _, s, _) => connection (d_tcp s) A6 S4 D4 Established T_EST 9 false | _ => False end.
Proof.
  split; [exact (proj1 C92_close_case)|]. split; [exact nat64_pool6|]. split; [vm_compute; split; congruence|]. split; [vm_compute; reflexivity|]. split; [intros []|].
  split; [exists 0; eexists _, _; vm_compute; repeat split; intuition congruence|].
  split. { eexists _, _, _, _. split; [vm_compute; reflexivity|]. split; [vm_compute; reflexivity|]. split; [vm_compute; reflexivity|]. split; [vm_compute; reflexivity|]. split; vm_compute; reflexivity. }
  split; [vm_compute; exists 0; eexists _, _; vm_compute; repeat split; intuition congruence|].
  split; vm_compute; exists 0; eexists _, _; vm_compute; repeat split; intuition congruence.
Qed.
