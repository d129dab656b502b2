(** Concrete cases of C90. *)
Require Import Verif.Base Verif.Addr_Model Verif.Addr_Spec Verif.Addr_Properties Verif.Rtrie_Model Verif.Pool4_Model Verif.Eam_Model Verif.Eam_Spec
  Verif.Deny_Model Verif.Deny_Spec Verif.Siit_Model Verif.Siit_Spec Verif.Siit_Proofs Verif.Siit_Properties.
Require Import Verif.Csum_Model Verif.Csum_Spec Verif.Csum_Proofs Verif.Csum_Properties Verif.Pkt_Model Verif.Pkt_Spec Verif.Pkt_Proofs Verif.Pkt_Properties
  Verif.Hdr_Model Verif.Hdr_Spec Verif.Hdr_Proofs Verif.Hdr_Properties Verif.Ext_Model Verif.Xlat_Model Verif.Xlat_Spec Verif.Xlat_Proofs Verif.Xlat_Proofs46
  Verif.Xlat_Properties Verif.Icmperr_Spec Verif.Icmperr_Properties Verif.Trip_Spec Verif.Trip_Proofs Verif.E2e_Model Verif.E2e_Out Verif.E2e_Back Verif.S2e_Model Verif.S2e_Spec Verif.S2e_Proofs Verif.S2e_Properties Verif.S2e_Errors.
Require Verif.E2e_Cases.

(** A UDP packet from 2001:db8:a:: to the pool6 address of 203.0.115.5; the first is
    mapped to 192.0.2.1. *)
Definition hello6 (s d : Z) : list Z := [96;0;0;0; 0;12;17;64] ++ Base.octets 16 s ++ Base.octets 16 d ++ [4;210;0;53; 0;12;18;52; 1;2;3;4].
Definition hello4 (s d : Z) : list Z := [69;0;0;32; 0;7;0;0; 64;17;0;0] ++ Base.octets 4 s ++ Base.octets 4 d ++ [0;53;4;210; 0;12;18;52; 5;6;7;8].

Lemma packet_there s d : packet6 (hello6 s d) [] 17 40 48.
Proof.
  unfold packet6. split; [reflexivity|]. split; [apply c_upper; cbn; lia|]. split; [intros _|split; [intros N; elim N; exact Logic.I|split; [cbn; lia|intros; discriminate]]].
  split; [discriminate|]. split; [reflexivity|intros; tauto].
Qed.
Lemma packet_back s d : packet4 (hello4 s d) 17 20 28.
Proof.
  unfold packet4. split; [cbn; lia|]. split; [reflexivity|]. split; [reflexivity|]. split; [intros _|split; [intros N; elim N; reflexivity|split; [cbn; lia|discriminate]]].
  split; [discriminate|]. split; [reflexivity|intros; tauto].
Qed.
Lemma okA h : permitted site1 A4 h. Proof. apply ok1; [unfold is_u32, A4; lia|vm_compute; reflexivity]. Qed.
Lemma okX h : permitted site1 X4 h. Proof. apply ok1; [unfold is_u32, X4; lia|vm_compute; reflexivity]. Qed.
Lemma okB h : permitted site1 B4 h. Proof. apply ok1; [unfold is_u32, B4; lia|vm_compute; reflexivity]. Qed.

(** There and back again: the hypotheses of the theorems hold, and these are the octets *)
Example C90_there_case : packet6 (hello6 A6 PX) [] 17 40 48 /\ Forall is_u8 (hello6 A6 PX)
  /\ field (hello6 A6 PX) 8 16 = A6 /\ field (hello6 A6 PX) 24 16 = PX /\ represents site1 A6 A4 (ByEam mapA) /\ represents site1 PX X4 (ByPool6 pool1)
  /\ (forall h, permitted site1 A4 h) /\ (forall h, permitted site1 X4 h) /\ pool6_clear site1
  /\ siit6 (st1 EHM_INTRINSIC) luck0 luck0 true ex_env64 ex_env46 true (hello6 A6 PX) 44
     = Ok (SPacket4 ([69;0;0;32; 0;7;0;0; 63;17;123;191; 192;0;2;1; 203;0;115;5] ++ [4;210;0;53; 0;12;125;245; 1;2;3;4]))
  /\ became4 ex_env64 (Some 1500) (44%nat = 52%nat) (hello6 A6 PX) [] 17 40 A4 X4 ([69;0;0;32; 0;7;0;0; 63;17;123;191; 192;0;2;1; 203;0;115;5] ++ [4;210;0;53; 0;12;125;245; 1;2;3;4]).
Proof.
  assert (F : Forall is_u8 (hello6 A6 PX)) by E2e_Cases.octets.
  assert (E1 : field (hello6 A6 PX) 8 16 = A6) by (vm_compute; reflexivity). assert (E2 : field (hello6 A6 PX) 24 16 = PX) by (vm_compute; reflexivity).
  pose proof repA as RA. pose proof repX as RX. rewrite <- E1 in RA at 1. rewrite <- E2 in RX at 1.
  destruct (C90_there_partial (st1 EHM_INTRINSIC) site1 luck0 luck0 true ex_env64 ex_env46 (hello6 A6 PX) 44 [] 17 40 48 A4 (ByEam mapA) X4 (ByPool6 pool1) (view1 _) wf1 clear1 E2e_Cases.world64_case eq_refl eq_refl
    F ltac:(cbn; lia) (packet_there _ _) ltac:(discriminate) ltac:(discriminate) ltac:(discriminate) ltac:(apply Nat.leb_le; vm_compute; reflexivity) ltac:(unfold is_u32, A4; lia) ltac:(unfold is_u32, X4; lia)
    RA RX ltac:(rewrite E1; discriminate) ltac:(rewrite E2; discriminate) (okA _) (okX _) eq_refl) as (r & E & X).
  assert (E' := E). vm_compute in E'. injection E' as <-. do 2 (split; [first [apply packet_there|exact F]|]). split; [exact E1|]. split; [exact E2|]. split; [exact repA|]. split; [exact repX|].
  split; [exact okA|]. split; [exact okX|]. split; [exact clear1|]. split; [exact E|exact X].
Qed.

Example C90_back_case : packet4 (hello4 X4 A4) 17 20 28 /\ world46 ex_env46 20
  /\ siit4 (st1 EHM_INTRINSIC) luck0 ex_env46 true (hello4 X4 A4) 24
     = Ok (SPackets6 [[96;0;0;0; 0;12;17;63] ++ Base.octets 16 PX ++ Base.octets 16 A6 ++ [0;53;4;210; 0;12;166;114; 5;6;7;8]])
  /\ became6 ex_env46 (CS_NONE = CS_PARTIAL) 63 (hello4 X4 A4) 20 PX A6 [[96;0;0;0; 0;12;17;63] ++ Base.octets 16 PX ++ Base.octets 16 A6 ++ [0;53;4;210; 0;12;166;114; 5;6;7;8]].
Proof.
  assert (F : Forall is_u8 (hello4 X4 A4)) by E2e_Cases.octets.
  assert (E1 : field (hello4 X4 A4) 12 4 = X4) by (vm_compute; reflexivity). assert (E2 : field (hello4 X4 A4) 16 4 = A4) by (vm_compute; reflexivity).
  pose proof repA as RA. pose proof repX as RX. pose proof (okA (ByEam mapA)) as OA. pose proof (okX (ByPool6 pool1)) as OX. rewrite <- E2 in RA, OA. rewrite <- E1 in RX, OX.
  destruct (C90_back_partial (st1 EHM_INTRINSIC) site1 luck0 ex_env46 (hello4 X4 A4) 24 17 20 28 A6 (ByEam mapA) PX (ByPool6 pool1) (view1 _) wf1 (E2e_Cases.world46_case 20 ltac:(lia))
    F ltac:(cbn; lia) (packet_back _ _) ltac:(discriminate) ltac:(discriminate) ltac:(discriminate) ltac:(lia) (o_none _ _) ltac:(vm_compute; congruence)
    RA RX ltac:(discriminate) OA OX ltac:(intros _; eexists; reflexivity) eq_refl) as (r & E & X).
  assert (E' := E). vm_compute in E'. injection E' as <-. split; [apply packet_back|]. split; [apply E2e_Cases.world46_case; lia|]. split; [exact E|]. exact (proj2 X).
Qed.

(** The mapped nodes A6 and B6 talk by means of B6's pool6 address. *)
Example C90_hairpin_case : packet6 (hello6 A6 PB) [] 17 40 48 /\ turns EHM_INTRINSIC site1 PB B4
  /\ siit6 (st1 EHM_INTRINSIC) luck0 luck0 true ex_env64 ex_env46 true (hello6 A6 PB) 44
     = Ok (SPackets6 [[96;0;0;0; 0;12;17;63] ++ Base.octets 16 PA ++ Base.octets 16 B6 ++ [4;210;0;53; 0;12;19;50; 1;2;3;4]]).
Proof.
  split; [apply packet_there|]. split; [|vm_compute; reflexivity]. split; [reflexivity|]. split.
  - exists pool1. eapply (rep_unmapped_stands site1 pool1 PB B4); [apply wf1|apply clear1|unfold is_u32, B4; lia|reflexivity|apply repU; vm_compute; reflexivity].
  - exists mapB. split; [left; reflexivity|vm_compute; reflexivity].
Qed.

(** 203.0.113.77 has no address in the IPv6 network, except by pool6. It tells 192.0.2.1,
    which is 2001:db8:a::, that its packet to 203.0.115.5 has died. *)
Definition died4 : list Z := [69;0;0;60; 0;9;0;0; 61;1;0;0] ++ [203;0;113;77] ++ Base.octets 4 A4 ++ [11;0;76;106;0;0;0;0] ++ hello4 A4 X4.
Lemma died4_packet : packet4 died4 1 20 28.
Proof.
  unfold packet4. split; [cbn; lia|]. split; [reflexivity|]. split; [reflexivity|]. split; [intros _|split; [intros N; elim N; reflexivity|split; [cbn; lia|]]].
  - split; [discriminate|]. split; [reflexivity|intros; lia].
  - intros _. split; [reflexivity|]. split; [unfold fr4_more; vm_compute; discriminate|]. split; [cbn; lia|]. intros _. exists 56%nat. repeat split; try (vm_compute; (reflexivity || discriminate || lia)).
Qed.
Example C91_error4_case : packet4 died4 1 20 28 /\ icmp4_error_type (oct died4 20) /\ field died4 16 4 = A4 /\ field died4 40 4 = A4 /\ field died4 44 4 = X4
  /\ exists o s6, siit4 (st1 EHM_INTRINSIC) luck0 ex_env46 true died4 24 = Ok (SPackets6 [o]) /\ teller6 site1 luck0 0xcb00714d s6 /\ told6 ex_env46 died4 20 28 s6 A6 A6 PX o /\ length o = 100%nat.
Proof.
  assert (F : Forall is_u8 died4) by E2e_Cases.octets.
  assert (E1 : field died4 40 4 = A4) by (vm_compute; reflexivity). assert (E2 : field died4 44 4 = X4) by (vm_compute; reflexivity). assert (E3 : field died4 16 4 = field died4 40 4) by (vm_compute; reflexivity).
  pose proof repA as RA. pose proof repX as RX. pose proof (okA (ByEam mapA)) as OA. pose proof (okX (ByPool6 pool1)) as OX. rewrite <- E1 in RA, OA. rewrite <- E2 in RX, OX.
  destruct (C91_error4_partial (st1 EHM_INTRINSIC) site1 luck0 ex_env46 died4 24 20 28 A6 (ByEam mapA) PX (ByPool6 pool1) (view1 _) wf1 luck0_wt ltac:(intros h [= <-]; unfold is_u128; lia)
    (E2e_Cases.world46_case 20 ltac:(lia)) F ltac:(cbn; lia) died4_packet ltac:(cbn; lia) ltac:(vm_compute; lia) ltac:(lia) (o_none _ _) ltac:(vm_compute; congruence) ltac:(discriminate) ltac:(discriminate) ltac:(discriminate) ltac:(discriminate) ltac:(vm_compute; congruence)
    E3 RA RX OA OX ltac:(intros _; eexists; reflexivity)) as (r & E & X).
  assert (E' := E). vm_compute in E'. injection E' as <-. destruct X as (o & s6 & [= <-] & T & X).
  split; [exact died4_packet|]. split; [cbn; lia|]. split; [rewrite E3; exact E1|]. split; [exact E1|]. split; [exact E2|]. eexists _, s6. split; [exact E|]. split; [exact T|]. split; [exact X|reflexivity].
Qed.

(** 2001:db8:ffff::5, which no mapping nor pool6 knows, tells 203.0.115.5 that 2001:db8:a:: did not get its packet. *)
Definition nobody6 : list Z := [96;0;0;0; 0;60;58;61] ++ Base.octets 16 0x20010db8ffff00000000000000000005 ++ Base.octets 16 PX ++ [1;4;154;94;0;0;0;0] ++ hello6 PX A6.
Lemma nobody6_packet : packet6 nobody6 [] 58 40 48 /\ inner6 nobody6 48 [] 17 88 96.
Proof.
  assert (I : inner6 nobody6 48 [] 17 88 96) by (repeat split; try (vm_compute; (reflexivity || discriminate || lia)); apply c_upper; cbn; lia). split; [|exact I].
  split; [cbn; lia|]. split; [apply c_upper; cbn; lia|]. split; [intros _; split; [discriminate|]; split; [reflexivity|intros; lia]|].
  split; [intros N; elim N; exact Logic.I|]. split; [vm_compute; lia|]. intros _. split; [vm_compute; exact Logic.I|]. split; [vm_compute; lia|]. intros _. exists [], 17, 88%nat, 96%nat. exact I.
Qed.
Example C91_error6_case : packet6 nobody6 [] 58 40 48 /\ inner6 nobody6 48 [] 17 88 96 /\ icmp6_error_type (oct nobody6 40) /\ field nobody6 24 16 = PX /\ field nobody6 56 16 = PX /\ field nobody6 72 16 = A6
  /\ exists o r4, siit6 (st1 EHM_INTRINSIC) luck0 luck0 true ex_env64 ex_env46 true nobody6 24 = Ok (SPacket4 o) /\ teller4 site1 luck0 0x20010db8ffff00000000000000000005 r4
     /\ told4 ex_env64 nobody6 [] 40 48 [] 17 88 r4 X4 X4 A4 o /\ length o = 60%nat.
Proof.
  assert (F : Forall is_u8 nobody6) by E2e_Cases.octets. destruct nobody6_packet as [PK IN].
  assert (E1 : field nobody6 56 16 = PX) by (vm_compute; reflexivity). assert (E2 : field nobody6 72 16 = A6) by (vm_compute; reflexivity). assert (E3 : field nobody6 24 16 = field nobody6 56 16) by (vm_compute; reflexivity).
  assert (E4 : field nobody6 8 16 = 0x20010db8ffff00000000000000000005) by (vm_compute; reflexivity).
  pose proof repA as RA. pose proof repX as RX. rewrite <- E2 in RA at 1. rewrite <- E1 in RX at 1.
  destruct (C91_error6_partial (st1 EHM_INTRINSIC) site1 luck0 luck0 true ex_env64 ex_env46 nobody6 24 [] 40 48 [] 17 88 96 A4 (ByEam mapA) X4 (ByPool6 pool1) (view1 _) wf1 clear1 luck0_wt ltac:(intros h [= <-]; unfold is_u32; lia)
    E2e_Cases.world64_case ltac:(unfold is_u16; cbn; lia) F ltac:(cbn; lia) PK ltac:(cbn; lia) IN eq_refl eq_refl ltac:(discriminate) ltac:(discriminate) ltac:(discriminate) ltac:(vm_compute; congruence)
    E3 ltac:(unfold is_u32, A4; lia) ltac:(unfold is_u32, X4; lia) RA RX ltac:(change (field nobody6 72 16 <> loopback6); rewrite E2; discriminate) ltac:(change (field nobody6 56 16 <> loopback6); rewrite E1; discriminate) (okA _) (okX _)) as (r & E & X).
  assert (E' := E). vm_compute in E'. injection E' as <-. destruct X as (r4 & T & X). rewrite E4 in T.
  split; [exact PK|]. split; [exact IN|]. split; [cbn; lia|]. split; [rewrite E3; exact E1|]. split; [exact E1|]. split; [exact E2|]. eexists _, r4. split; [exact E|]. split; [exact T|]. split; [exact X|reflexivity].
Qed.
