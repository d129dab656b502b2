(** C86, cases: a node's UDP packet, the answer to it, another node which writes to
    the first one's address in pool4; a TCP segment whose data offset is 0. *)
Require Import Verif.Base Verif.Addr_Model Verif.Addr_Spec Verif.Rtrie_Model Verif.Pool4_Model Verif.Pool4_Spec Verif.Fsm_Model Verif.Bib_Model
  Verif.Bib_Find Verif.Bib_Hist Verif.Bib_Spec Verif.Bib_Properties Verif.Nat64_Model Verif.Nat64_Spec Verif.Nat64_Properties Verif.Nat64_Safe Verif.Nat64_Pool4 Verif.Nat64_Cases.
Require Import Verif.Csum_Model Verif.Csum_Spec Verif.Pkt_Model Verif.Pkt_Spec Verif.Pkt_Properties
  Verif.Hdr_Model Verif.Hdr_Spec Verif.Ext_Model Verif.Xlat_Model Verif.Xlat_Spec Verif.Xlat_Properties Verif.E2e_Model Verif.E2e_Spec Verif.E2e_Out Verif.E2e_Back Verif.E2e_Hairpin Verif.E2e_Properties Verif.E2e_Pool4.

Lemma nat64_usable : forall now, usable4 nat64 (world now).
Proof.
  intros now. apply (C86_pool4 pool4_ops [(ports3 ICMP, OK); (ports3 UDP, OK); (ports3 TCP, OK)] pool4_3 nat64 (world now)).
  - repeat constructor; vm_compute; congruence.
  - vm_compute. reflexivity.
  - intros o Hi. cbn in Hi. repeat (destruct Hi as [E|Hi]; [discriminate|]). destruct Hi.
  - cbn. unfold covers, in_prefix. cbn. split; [|split; [|split; [|exact Logic.I]]]; intros _; (split; [discriminate || exact Logic.I|]); intros a Ha; left; intros q Hq H; intuition discriminate.
  - intros pr m. set (l := [(four, 5000); (four, 5001); (four, 5002)]).
    assert (L : lists l (fun a q => a = four /\ 5000 <= q <= 5002)).
    { split; [repeat constructor; cbn; intuition congruence|]. intros a q. cbn. split.
      - intros [X|[X|[X|[]]]]; injection X as <- <-; lia.
      - intros [-> X]. assert (q = 5000 \/ q = 5001 \/ q = 5002) as [->|[->| ->]] by lia; auto. }
    assert (C : forall a q, covers (Rg four 32 5000 5002) a q <-> a = four /\ 5000 <= q <= 5002).
    { intros a q. unfold covers, in_prefix. cbn. rewrite !Z.div_1_r. intuition lia. }
    destruct (Z.eq_dec m 0) as [->|Nm].
    + destruct pr; [exists l|exists l|exists l|exists []]; (split; [|cbn; lia]); (split; [try exact (proj1 L); constructor|]); intros a q; try (rewrite (proj2 L a q));
        cbn -[covers Z.pow]; rewrite !C; unfold port_ok; cbn [In]; intuition (try discriminate; try lia).
    + exists []. split; [|cbn; lia]. split; [constructor|]. intros a q. cbn. split; [intros []|]. intuition congruence.
  - reflexivity.
  - intros a X. discriminate.
Qed.
Lemma nat64_pool6 : pool6_ok nat64.
Proof. split; [vm_compute; repeat split; discriminate|]. exists false. reflexivity. Qed.
Lemma world64_case : world64 ex_env64.
Proof. split; [vm_compute; split; congruence|]. split; [vm_compute; split; congruence|]. cbn. intros mtu [= <-]. lia. Qed.
Lemma world46_case up : (up < 60)%nat -> world46 ex_env46 up.
Proof.
  intros H. destruct ex_env46_ok as (_ & _ & _ & A & B & _ & C & D & E & _). unfold world46. cbn [ex_env46 y_gso y_flist y_head y_fresh y_fuel] in *. rewrite repeat_length.
  split; [reflexivity|]. split; [reflexivity|]. split; [lia|]. split; [exact C|]. split; [exact D|]. split; [exact E|]. lia.
Qed.

(** 2001:db8::5, port 1234, writes to 64:ff9b::192.0.2.33, port 53. *)
Definition A6 : ta := (be_of ex_src6, 1234).
Definition D6 : ta := (be_of ex_dst6, 53).
Definition S4 : ta := (four, 5002).
Definition D4 : ta := (0xc0000221, 53).
Definition case_out : res (result * db * list ev) := core6 nat64 true (world 0) (world 0) true ex_env64 ex_env46 init_db true ex_udp6 62.
Definition state_of (r : res (result * db * list ev)) : db := match r with Ok (_, s, _) => s | _ => init_db end.
Definition after : db := state_of case_out.
Definition sent_out : list Z := [69;1;0;33; 0;7;0;0; 63;17;247;161; 192;0;2;1; 192;0;2;33; 19;138;0;53;0;13;36;32; 104;101;108;108;111].
(** The answer *)
Definition answer : list Z := [69;0;0;32; 0;9;0;0; 64;17;0;0; 192;0;2;33; 192;0;2;1; 0;53;19;138;0;12;0;0; 111;107;33;33].
(** 2001:db8::6, port 4321, writes to 64:ff9b::192.0.2.1, port 5002. *)
Definition B6 : list Z := [32;1;13;184; 0;0;0;0; 0;0;0;0; 0;0;0;6].
Definition peer : list Z := [96;0;0;0; 0;10;17;64] ++ B6 ++ [0;100;255;155; 0;0;0;0; 0;0;0;0; 192;0;2;1] ++ [16;225;19;138;0;10;131;69; 104;105].

Ltac octets := vm_compute; repeat constructor; discriminate.
Lemma init_ok : reachable_db init_db /\ typed_db init_db.
Proof. split; [exact start_reachable|]. intros pr s6 s4 st (i & b & H & _). destruct pr; discriminate. Qed.
Lemma out_packet : packet6 ex_udp6 [(0, 40%nat); (43, 48%nat)] 17 56 64 /\ first_piece ex_udp6 [(0, 40%nat); (43, 48%nat)].
Proof. split; [apply C74_example|exact Logic.I]. Qed.
Lemma out_talk : talk6 ex_udp6 17 56 UDP A6 D6.
Proof. split; [reflexivity|]. split; [reflexivity|]. right. left. repeat split. Qed.

Example C86_there_case : reachable_db init_db /\ typed_db init_db /\ usable4 nat64 (world 0) /\ pool6_ok nat64 /\ world64 ex_env64 /\ Forall is_u8 ex_udp6
  /\ packet6 ex_udp6 [(0, 40%nat); (43, 48%nat)] 17 56 64 /\ first_piece ex_udp6 [(0, 40%nat); (43, 48%nat)] /\ talk6 ex_udp6 17 56 UDP A6 D6
  /\ exists s1 evs, case_out = Ok (Packet4 sent_out, s1, evs) /\ talk4 sent_out 20 UDP S4 D4 /\ has_session (d_udp s1) A6 S4 D6 D4 /\ ok4 (fst S4) (fst D4) 17 (skipn 20 sent_out).
Proof.
  destruct init_ok as [R T]. destruct out_packet as [P F]. split; [exact R|]. split; [exact T|]. split; [apply nat64_usable|]. split; [exact nat64_pool6|]. split; [exact world64_case|]. split; [octets|].
  split; [exact P|]. split; [exact F|]. split; [exact out_talk|]. exists (state_of case_out). eexists. split; [vm_compute; reflexivity|].
  split; [split; [reflexivity|]; split; [reflexivity|]; right; left; repeat split|]. split; [|split; vm_compute; [discriminate|reflexivity]].
  exists 0. eexists _, _. vm_compute. repeat split.
Qed.

Ltac rng := vm_compute; split; congruence.
Lemma after_ok : reachable_db after /\ typed_db after.
Proof.
  split.
  - destruct (C86_defined6_partial nat64 true (world 0) (world 0) true ex_env64 ex_env46 init_db true ex_udp6 62 _ _ _ _ _ _ _ (proj1 init_ok) (nat64_sound 0) (nat64_sound 0) world64_case (world46_case 20 ltac:(lia))
      ltac:(octets) ltac:(vm_compute; lia) (proj1 out_packet) (proj2 out_packet) out_talk ltac:(discriminate) ltac:(apply Nat.leb_le; vm_compute; reflexivity)) as [(r & s & e & E & R)|(_ & X & _)]; [|discriminate].
    unfold after, case_out. rewrite E. exact R.
  - intros pr s6 s4 st (i & b & H & <- & <- & _). destruct pr; try (vm_compute in H; discriminate H). destruct (Z.eq_dec i 1) as [->|N].
    + vm_compute in H. injection H as <-. split; split; rng.
    + exfalso. vm_compute in H. destruct i as [|[q|q|]|q]; try discriminate. congruence.
Qed.
Lemma answer_packet : packet4 answer (oct answer 9) 20 28.
Proof.
  split; [vm_compute; lia|]. split; [reflexivity|]. split; [vm_compute; reflexivity|]. split; [intros _; split; [discriminate|]; split; [reflexivity|intros _ N; elim N; reflexivity]|].
  split; [intros N; elim N; vm_compute; reflexivity|]. split; [vm_compute; lia|]. intros X. vm_compute in X. discriminate X.
Qed.
Lemma case_session : has_session (get_table after UDP) A6 S4 D6 D4.
Proof. exists 0. eexists _, _. vm_compute. repeat split. Qed.
Lemma answer_talk : talk4 answer 20 UDP D4 S4.
Proof. split; [reflexivity|]. split; [reflexivity|]. right. left. repeat split. Qed.
Example C86_back_case : reachable_db after /\ typed_db after /\ pool6_ok nat64 /\ canonical nat64 (fst D6) /\ world46 ex_env46 20 /\ Forall is_u8 answer /\ packet4 answer (oct answer 9) 20 28 /\ fr4_offset answer 0 = 0
  /\ talk4 answer 20 UDP D4 S4 /\ options answer 20 20 /\ has_session (get_table after UDP) A6 S4 D6 D4 /\ pool4db_contains (g_pool4 nat64) [] UDP (fst S4) (snd S4) = Ok true
  /\ match core4 nat64 true (world 5) ex_env46 after true answer 20 with Ok (r, _, _) => r
       = Packets6 [[96;0;0;0; 0;12;17;63] ++ ex_dst6 ++ ex_src6 ++ [0;53;4;210;0;12;122;99; 111;107;33;33]] | _ => False end.
Proof.
  destruct after_ok as [R T]. split; [exact R|]. split; [exact T|]. split; [exact nat64_pool6|]. split; [exists (fst D4); split; [rng|vm_compute; reflexivity]|]. split; [apply world46_case; lia|]. split; [octets|]. split; [exact answer_packet|].
  split; [vm_compute; reflexivity|]. split; [exact answer_talk|]. split; [apply o_none|]. split; [exact case_session|]. split; [vm_compute; reflexivity|].
  vm_compute. reflexivity.
Qed.

Lemma peer_packet : packet6 peer [] 17 40 48 /\ first_piece peer [].
Proof.
  split; [|exact Logic.I]. split; [vm_compute; reflexivity|]. split; [apply (c_upper _ 17 40); cbn; lia|].
  split; [intros _|split; [intros N; elim N; exact Logic.I|split; [cbn; lia|intros; discriminate]]]. split; [discriminate|]. split; [reflexivity|intros; tauto].
Qed.
Example C86_hairpin_case : packet6 peer [] 17 40 48 /\ first_piece peer [] /\ talk6 peer 17 40 UDP (be_of B6, 4321) (p6 four, 5002) /\ Forall is_u8 peer
  /\ match core6 nat64 true (world 7) (world 7) true ex_env64 ex_env46 after true peer 40 with Ok (r, _, _) => r
       = Packets6 [[96;0;0;0; 0;10;17;63] ++ [0;100;255;155; 0;0;0;0; 0;0;0;0; 192;0;2;1] ++ ex_src6 ++ [19;136;4;210;0;10;143;87; 104;105]] | _ => False end.
Proof.
  split; [apply peer_packet|]. split; [apply peer_packet|]. split; [split; [reflexivity|]; split; [reflexivity|]; right; left; repeat split|]. split; [octets|].
  vm_compute. reflexivity.
Qed.

(** A TCP segment whose data offset is 0, with only the IPv6 header in the linear
    area: the ports are read outside of it. *)
Definition tcp0 : list Z := [96;0;0;0; 0;20;6;64] ++ ex_src6 ++ ex_dst6 ++ repeat 0 20.
Theorem C86_defined_refuted : exists g n w w2 m hs up pay, sound g n /\ world64 w /\ world46 w2 20 /\ Forall is_u8 m /\ packet6 m hs 6 up pay /\ first_piece m hs
  /\ core6 g true n n true w w2 init_db true m 40 = UB.
Proof.
  exists nat64, (world 0), ex_env64, ex_env46, tcp0, [], 40%nat, 40%nat. split; [apply nat64_sound|]. split; [exact world64_case|]. split; [apply world46_case; lia|]. split; [octets|].
  split; [|split; [exact Logic.I|vm_compute; reflexivity]]. split; [vm_compute; reflexivity|]. split; [apply (c_upper _ 6 40); cbn; lia|].
  split; [intros _|split; [intros N; elim N; exact Logic.I|split; [cbn; lia|intros; discriminate]]]. split; [intros _; split; vm_compute; (reflexivity || lia)|]. split; [intros [|]; discriminate|intros; tauto].
Qed.
Print Assumptions C86_defined_refuted.
(** Nor are they both inside of it when it ends among the ports. *)
Example C86_defined_linear : forall lin, (40 <= lin <= 43)%nat -> core6 nat64 true (world 0) (world 0) true ex_env64 ex_env46 init_db true tcp0 lin = UB.
Proof. intros lin H. assert (lin = 40 \/ lin = 41 \/ lin = 42 \/ lin = 43)%nat as [->|[->|[->| ->]]] by lia; vm_compute; reflexivity. Qed.
