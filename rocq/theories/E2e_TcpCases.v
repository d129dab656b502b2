(** C92, cases: 2001:db8::5 opens a connection with 192.0.2.33, which answers, and then
    closes its side. *)
Require Import Verif.Base Verif.Addr_Model Verif.Addr_Spec Verif.Rtrie_Model Verif.Pool4_Model Verif.Pool4_Spec Verif.Fsm_Model Verif.Fsm_Spec Verif.Bib_Model
  Verif.Bib_Find Verif.Bib_Hist Verif.Bib_Spec Verif.Bib_Properties Verif.Nat64_Model Verif.Nat64_Spec Verif.Nat64_Properties Verif.Nat64_Safe Verif.Nat64_Pool4 Verif.Nat64_Cases.
Require Import Verif.Csum_Model Verif.Csum_Spec Verif.Pkt_Model Verif.Pkt_Spec Verif.Pkt_Properties
  Verif.Hdr_Model Verif.Hdr_Spec Verif.Ext_Model Verif.Xlat_Model Verif.Xlat_Spec Verif.Xlat_Properties Verif.E2e_Model Verif.E2e_Spec Verif.E2e_Out Verif.E2e_Back Verif.E2e_Properties Verif.E2e_Cases Verif.E2e_Tcp.

(** Octet 13 of the header: 2 is SYN, 18 SYN and ACK, 17 FIN and ACK. *)
Definition seg6 (flags : Z) : list Z := [96;0;0;0; 0;20;6;64] ++ ex_src6 ++ ex_dst6 ++ [4;210;0;53; 0;0;0;1; 0;0;0;0; 80;flags;16;0; 0;0;0;0].
Definition seg4 (flags : Z) : list Z := [69;0;0;40; 0;9;0;0; 64;6;0;0; 192;0;2;33; 192;0;2;1; 0;53;19;138; 0;0;0;1; 0;0;0;2; 80;flags;16;0; 0;0;0;0].
Definition run6 (now : Z) (s : db) (flags : Z) := core6 nat64 true (world now) (world now) true ex_env64 ex_env46 s true (seg6 flags) 60.
Definition run4 (now : Z) (s : db) (flags : Z) := core4 nat64 true (world now) ex_env46 s true (seg4 flags) 40.
Definition opened : db := state_of (run6 0 init_db 2).
Definition answered : db := state_of (run4 5 opened 18).
Definition closing : db := state_of (run6 9 answered 17).

Lemma seg6_packet f : 0 <= f < 256 -> Forall is_u8 (seg6 f) /\ packet6 (seg6 f) [] 6 40 60 /\ first_piece (seg6 f) [] /\ talk6 (seg6 f) 6 40 TCP A6 D6 /\ 5 <= oct (seg6 f) (40 + 12) / 16.
Proof.
  intros H. split; [unfold seg6; repeat (apply Forall_app; split); try octets; repeat constructor; unfold is_u8; lia|].
  split; [|split; [exact Logic.I|split; [split; [reflexivity|]; split; [reflexivity|]; left; repeat split|vm_compute; discriminate]]].
  split; [vm_compute; reflexivity|]. split; [apply (c_upper _ 6 40); cbn; lia|].
  split; [intros _|split; [intros N; elim N; exact Logic.I|split; [cbn; lia|intros; discriminate]]]. split; [intros _; split; vm_compute; (reflexivity || lia)|]. split; [intros [|]; discriminate|intros; tauto].
Qed.
Lemma seg4_packet f : 0 <= f < 256 -> Forall is_u8 (seg4 f) /\ packet4 (seg4 f) (oct (seg4 f) 9) 20 40 /\ fr4_offset (seg4 f) 0 = 0 /\ talk4 (seg4 f) 20 TCP D4 S4 /\ 5 <= oct (seg4 f) (20 + 12) / 16.
Proof.
  intros H. split; [unfold seg4; repeat constructor; unfold is_u8; lia|].
  split; [|split; [reflexivity|split; [split; [reflexivity|]; split; [reflexivity|]; left; repeat split|vm_compute; discriminate]]].
  split; [vm_compute; lia|]. split; [reflexivity|]. split; [vm_compute; reflexivity|].
  split; [intros _; split; [intros _; split; vm_compute; (reflexivity || lia)|]; split; [intros [X|X]; vm_compute in X; discriminate X|intros N; elim N; reflexivity]|].
  split; [intros N; elim N; vm_compute; reflexivity|]. split; [vm_compute; lia|]. intros X. vm_compute in X. discriminate X.
Qed.
Lemma opened_ok : reachable_db opened.
Proof.
  destruct (seg6_packet 2 ltac:(lia)) as (F & P & I & T & O).
  destruct (C86_defined6_partial nat64 true (world 0) (world 0) true ex_env64 ex_env46 init_db true (seg6 2) 60 _ _ _ _ _ _ _ (proj1 init_ok) (nat64_sound 0) (nat64_sound 0) world64_case (world46_case 20 ltac:(lia))
    F ltac:(vm_compute; lia) P I T (fun _ => O) ltac:(apply Nat.leb_le; vm_compute; reflexivity)) as [(r & s & e & E & R)|(X & _)]; [|vm_compute in X; discriminate X].
  unfold opened, run6. rewrite E. exact R.
Qed.
Lemma answered_ok : reachable_db answered.
Proof.
  destruct (seg4_packet 18 ltac:(lia)) as (F & P & I & T & O).
  destruct (C86_defined4_partial nat64 true (world 5) ex_env46 opened true (seg4 18) 40 _ _ _ _ _ opened_ok (nat64_sound 5) (world46_case 20 ltac:(lia))
    F ltac:(vm_compute; lia) P I T (fun _ => O) ltac:(lia) ltac:(apply o_none) ltac:(vm_compute; discriminate)) as (r & s & e & E & R).
  unfold answered, run4. rewrite E. exact R.
Qed.

(** The answer, SYN and ACK, makes it established; the timer of established
    connections runs from then on. *)
Example C92_answer_case : reachable_db opened /\ packet4 (seg4 18) (oct (seg4 18) 9) 20 40 /\ talk4 (seg4 18) 20 TCP D4 S4 /\ connection (d_tcp opened) A6 S4 D4 V6Init T_TRANS 0 false
  /\ pool4db_contains (g_pool4 nat64) [] TCP (fst S4) (snd S4) = Ok true
  /\ flag (seg4 18) 20 SYN /\ ~ flag (seg4 18) 20 FIN /\ ~ flag (seg4 18) 20 RST
  /\ (exists p evs, run4 5 opened 18 = Ok (Packets6 [p], answered, evs)) /\ connection (d_tcp answered) A6 S4 D4 Established T_EST 5 false.
Proof.
  destruct (seg4_packet 18 ltac:(lia)) as (F & P & I & T & O). split; [exact opened_ok|]. split; [exact P|]. split; [exact T|].
  split; [exists 0; eexists _, _; vm_compute; repeat split; intuition congruence|]. split; [vm_compute; reflexivity|]. split; [vm_compute; reflexivity|]. split; [vm_compute; discriminate|]. split; [vm_compute; discriminate|].
  split; [eexists _, _; vm_compute; reflexivity|]. exists 0; eexists _, _; vm_compute; repeat split; intuition congruence.
Qed.
(** FIN from the IPv6 side. *)
Example C92_close_case : reachable_db answered /\ packet6 (seg6 17) [] 6 40 60 /\ talk6 (seg6 17) 6 40 TCP A6 D6 /\ prefix6_contains (g_pool6 nat64) (fst A6) = false /\ rfc6052_6to4 (g_pool6 nat64) (fst D6) = Some (fst D4)
  /\ (exists d, mask_domain_find (g_pool4 nat64) TCP (n_mark (world 9)) (n_hash (world 9)) (n_eph (world 9)) (n_route (world 9)) (n_kro (world 9)) = Ok (Domain d) /\ d_dynamic d = false) /\ pool4db_contains (g_pool4 nat64) [] TCP (fst D4) (snd D4) = Ok false
  /\ ~ flag (seg6 17) 40 SYN /\ flag (seg6 17) 40 FIN /\ ~ flag (seg6 17) 40 RST
  /\ (exists p evs, run6 9 answered 17 = Ok (Packet4 p, closing, evs)) /\ connection (d_tcp closing) A6 S4 D4 V6Fin T_EST 5 false.
Proof.
  destruct (seg6_packet 17 ltac:(lia)) as (F & P & I & T & O). split; [exact answered_ok|]. split; [exact P|]. split; [exact T|]. split; [vm_compute; reflexivity|]. split; [vm_compute; reflexivity|].
  split; [eexists; split; vm_compute; reflexivity|]. split; [vm_compute; reflexivity|]. split; [vm_compute; discriminate|]. split; [vm_compute; reflexivity|]. split; [vm_compute; discriminate|].
  split; [eexists _, _; vm_compute; reflexivity|]. exists 0; eexists _, _; vm_compute; repeat split; intuition congruence.
Qed.
(** RST instead of it, and RST of a stranger: another port *)
Example C92_reset_case : connection (d_tcp (state_of (run6 9 answered 4))) A6 S4 D4 Trans T_TRANS 9 false
  /\ connection (d_tcp (state_of (core4 nat64 true (world 9) ex_env46 answered true (firstn 20 (seg4 4) ++ [0;54] ++ skipn 22 (seg4 4)) 40))) A6 S4 D4 Established T_EST 5 false.
Proof. split; exists 0; eexists _, _; vm_compute; repeat split; intuition congruence. Qed.
