(** Cases for the claims about whole packets, and where C25 and C60 fail. *)
Require Import Verif.Base Verif.Addr_Model Verif.Addr_Spec Verif.Rtrie_Model Verif.Pool4_Model Verif.Fsm_Model Verif.Bib_Model Verif.Bib_Find Verif.Bib_Spec Verif.Bib_Hist Verif.Bib_Properties.
Require Import Verif.Nat64_Model Verif.Nat64_Spec Verif.Nat64_Properties Verif.Nat64_Errors Verif.Nat64_Hairpin Verif.Nat64_Safe Verif.Nat64_Pool4.

Lemma start_reachable : reachable_db init_db.
Proof. assert (R : forall p, reachable p init_table) by (intros p; exists [], []; split; [constructor|reflexivity]). split; [apply R|]. split; [apply R|]. split; [intros j s; discriminate|apply R]. Qed.
Definition goes (now : Z) (s : db) (k : pkt) : res (outcome * db * list ev) := core_common nat64 (world now) (world now) true Continue Continue s k.
Definition after (now : Z) (s : db) (k : pkt) : db := match goes now s k with Ok (_, s', _) => s' | _ => s end.
Lemma after_reachable : forall now s k, reachable_db s -> reachable_db (after now s k).
Proof. intros now s k R. unfold after. destruct (goes now s k) as [[[o s'] evs]| |] eqn:E; [|exact R..]. apply (C60_reachable _ _ _ _ _ _ _ _ _ _ _ R (nat64_sound _) (nat64_sound _) E). Qed.
Lemma nat64_pool6 : pool6_ok nat64.
Proof. split; [vm_compute; intuition congruence|exists false; vm_compute; reflexivity]. Qed.

(** There and back, with UDP and with TCP. *)
Definition host : Z := 0xcb007101.
Definition udp_there : pkt := Pkt V6 (a6 1) (p6 host) (LUdp 1000 80).
Definition udp_back : pkt := Pkt V4 host four (LUdp 80 5002).
Definition tcp_there : pkt := Pkt V6 (a6 1) (p6 host) (LTcp 1000 80 true false false).
Definition tcp_back : pkt := Pkt V4 host four (LTcp 80 5002 true false false).
Definition talking : db := after 20 (after 10 init_db udp_there) tcp_there.
Example talking_reachable : reachable_db talking.
Proof. apply after_reachable, after_reachable, start_reachable. Qed.
Example C25_case : goes 10 init_db udp_there = Ok (Sent V4 (Out (four, 5002) (host, 80)), after 10 init_db udp_there, []) /\
  goes 20 (after 10 init_db udp_there) tcp_there = Ok (Sent V4 (Out (four, 5002) (host, 80)), talking, []) /\ sound nat64 (world 10) /\
  has_session (d_udp talking) (a6 1, 1000) (four, 5002) (p6 host, 80) (host, 80) /\ open_session (d_tcp talking) (a6 1, 1000) (four, 5002) (host, 80) /\ canonical nat64 (p6 host) /\ pool6_ok nat64 /\
  exists s3 s4, goes 30 talking udp_back = Ok (Sent V6 (Out (p6 host, 80) (a6 1, 1000)), s3, []) /\ goes 40 s3 tcp_back = Ok (Sent V6 (Out (p6 host, 80) (a6 1, 1000)), s4, []).
Proof.
  split; [vm_compute; reflexivity|]. split; [vm_compute; reflexivity|]. split; [apply nat64_sound|].
  split; [exists 0; eexists _, _; split; [vm_compute; reflexivity|]; split; [vm_compute; reflexivity|repeat split]|].
  split; [exists 0; eexists _, _; split; [vm_compute; reflexivity|]; split; [vm_compute; reflexivity|repeat split]|].
  split; [exists host; split; [unfold is_u32, host; lia|vm_compute; reflexivity]|]. split; [exact nat64_pool6|].
  exists (after 30 talking udp_back), (after 40 (after 30 talking udp_back) tcp_back). split; vm_compute; reflexivity.
Qed.

(** An ICMP error about the UDP packet. *)
Definition unreachable : pkt := Pkt V4 (host + 7) four (LIcmp 3 0 (Inner four host (IUdp 5002 80))).
Example C24_case : icmp_error unreachable (Inner four host (IUdp 5002 80)) /\ goes 30 talking unreachable = Ok (Sent V6 (Out (p6 host, 80) (a6 1, 1000)), talking, []).
Proof. split; [exists 3, 0; split; [reflexivity|left; reflexivity]|vm_compute; reflexivity]. Qed.
Example C59_case : reachable_db talking /\ pool6_ok nat64 /\ about V4 (Inner four host (IUdp 5002 80)) = Some (UDP, (four, 5002), (host, 80)) /\
  has (d_udp talking) (a6 1, 1000) (four, 5002) false /\ pool4db_contains (g_pool4 nat64) [] UDP four 5002 = Ok true /\ canonical nat64 (p6 host) /\ flow udp_there = Some (UDP, (a6 1, 1000), (p6 host, 80)).
Proof.
  split; [exact talking_reachable|]. split; [exact nat64_pool6|]. split; [reflexivity|]. split; [exists 1; eexists; split; [vm_compute; reflexivity|repeat split]|].
  split; [vm_compute; reflexivity|]. split; [exists host; split; [unfold is_u32, host; lia|vm_compute; reflexivity]|reflexivity].
Qed.
(** An ICMPv6 error about its answer, from a router on the way. *)
Definition no_port6 : pkt := Pkt V6 (a6 99) (p6 host) (LIcmp 1 0 (Inner (p6 host) (a6 1) (IUdp 80 1000))).
Example C59_case6 : icmp_error no_port6 (Inner (p6 host) (a6 1) (IUdp 80 1000)) /\ about V6 (Inner (p6 host) (a6 1) (IUdp 80 1000)) = Some (UDP, (p6 host, 80), (a6 1, 1000)) /\
  rfc6052_6to4 (g_pool6 nat64) (p6 host) = Some host /\ prefix6_contains (g_pool6 nat64) (a6 99) = false /\ prefix6_contains (g_pool6 nat64) (p6 host) = true /\
  pool4db_contains (g_pool4 nat64) [] UDP host 80 = Ok false /\ goes 30 talking no_port6 = Ok (Sent V4 (Out (four, 5002) (host, 80)), talking, []).
Proof.
  split; [exists 1, 0; split; [reflexivity|left; reflexivity]|]. split; [reflexivity|]. split; [vm_compute; reflexivity|]. split; [vm_compute; reflexivity|]. split; [vm_compute; reflexivity|]. split; vm_compute; reflexivity.
Qed.

(** Hairpinning: another node calls the first by the address it has in pool4, and
    is answered. *)
Definition hairpin_there : pkt := Pkt V6 (a6 2) (p6 four) (LUdp 2000 5002).
Definition hairpin_back : pkt := Pkt V6 (a6 1) (p6 four) (LUdp 1000 5000).
Example C25_hairpin_case : goes 30 talking hairpin_there = Ok (Sent V6 (Out (p6 four, 5000) (a6 1, 1000)), after 30 talking hairpin_there, []) /\
  flow hairpin_back = Some (UDP, (a6 1, 1000), (p6 four, 5000)) /\ reachable_db (after 30 talking hairpin_there) /\
  has_session (d_udp (after 30 talking hairpin_there)) (a6 2, 2000) (four, 5000) (p6 four, 5002) (four, 5002) /\
  has_session (d_udp (after 30 talking hairpin_there)) (a6 1, 1000) (four, 5002) (p6 four, 5000) (four, 5000) /\
  exists s, goes 40 (after 30 talking hairpin_there) hairpin_back = Ok (Sent V6 (Out (p6 four, 5002) (a6 2, 2000)), s, []).
Proof.
  split; [vm_compute; reflexivity|]. split; [reflexivity|]. split; [apply after_reachable, talking_reachable|].
  split; [exists 2; eexists _, _; split; [vm_compute; reflexivity|]; split; [vm_compute; reflexivity|repeat split]|].
  split; [exists 4; eexists _, _; split; [vm_compute; reflexivity|]; split; [vm_compute; reflexivity|repeat split]|].
  exists (after 40 (after 30 talking hairpin_there) hairpin_back). vm_compute. reflexivity.
Qed.

(** ** Where C25 fails *)
(** With a pool6 prefix shorter than /96 there are many IPv6 addresses for one
    IPv4 node (RFC 6052 leaves the bits after the address for later use), and the
    answers come from another than the packets went to. *)
Definition nat64_40 : xconf := XConf conf (P6 0x20010db8010000000000000000000000 40) false pool4_3.
Definition elsewhere : Z := 0x20010db801cb00710001000000000001.
Theorem C25_refuted : exists g n k k2 o s1 e1 D6 S6 x s2 e2, sound g n /\ pool6_ok g /\ n_al n = [] /\ k_fam k = V6 /\ flow k = Some (UDP, S6, D6) /\
  core_common g n n true Continue Continue init_db k = Ok (Sent V4 o, s1, e1) /\ k_fam k2 = V4 /\ flow k2 = Some (UDP, o_dst o, o_src o) /\
  core_common g n n true Continue Continue s1 k2 = Ok (Sent V6 (Out x S6), s2, e2) /\ x <> D6.
Proof.
  exists nat64_40, (world 10), (Pkt V6 (a6 1) elsewhere (LUdp 1000 80)), (Pkt V4 host four (LUdp 80 5002)). eexists _, _, _, _, _, _, _, _.
  split; [destruct (nat64_sound 10) as (A & B & C); split; [exact A|split; [exact B|exact C]]|]. split; [split; [vm_compute; intuition congruence|exists false; vm_compute; reflexivity]|].
  split; [reflexivity|]. split; [reflexivity|]. split; [reflexivity|]. split; [vm_compute; reflexivity|]. split; [reflexivity|]. split; [vm_compute; reflexivity|]. split; [vm_compute; reflexivity|]. discriminate.
Qed.
Print Assumptions C25_refuted.

(** ** Where C60 fails *)
(** [C23_refuted] with packets: a SYN to an address nobody has is stored; a node is
    given that address for another connection; a second node calls the host the
    SYN came from. *)
Definition syn_in : pkt := Pkt V4 host four (LTcp 80 5002 true false false).
Definition syn_out (n to : Z) : pkt := Pkt V6 (a6 n) (p6 to) (LTcp 1000 80 true false false).
Theorem C60_refuted : exists g n s k, sound g n /\ n_al n = [] /\ reachable_db s /\ core_common g n n true Continue Continue s k = UB.
Proof.
  exists nat64, (world 30), (after 20 (after 10 init_db syn_in) (syn_out 1 (host + 1))), (syn_out 2 host).
  split; [apply nat64_sound|]. split; [reflexivity|]. split; [apply after_reachable, after_reachable, start_reachable|]. vm_compute. reflexivity.
Qed.
Print Assumptions C60_refuted.
Example C60_case : reachable_db talking /\ sound nat64 (world 30) /\ exists o s' evs, goes 30 talking udp_back = Ok (o, s', evs).
Proof. split; [exact talking_reachable|]. split; [apply nat64_sound|]. eexists _, _, _. vm_compute. reflexivity. Qed.
