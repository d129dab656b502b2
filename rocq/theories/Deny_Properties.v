(** C09: the IPv4 denylist. *)
Require Import Verif.Base Verif.Addr_Model Verif.Addr_Spec Verif.Paging.
Require Import Verif.Deny_Model Verif.Deny_Spec Verif.Deny_Proofs.

(** Any history behaves as a multiset of prefixes, and an address is
    denylisted iff a prefix in the multiset covers it. *)
Theorem C09_history : forall ops rs l, Forall wt_dop ops -> deny_run [] ops = (rs, l) ->
  exists b : bag, deny_spec_run empty_bag ops rs b /\
    (forall a, is_u32 a ->
      (denylist4_contains l a = true <-> exists p, (0 < b p)%nat /\ in_prefix 32 (p4_addr p) (p4_len p) a)) /\
    (forall p, (0 < b p)%nat <-> In p l) /\
    (denylist4_is_empty l = true <-> forall p, b p = O).
Proof.
  intros ops rs l Hw H. destruct (run_ok ops [] rs l Hw (Forall_nil _) H) as [H1 H2]. exists (cnt l).
  split; [exact H1|]. split; [intros; apply contains_ok; auto|]. split; [intros; apply cnt_in|].
  destruct l as [|x l]; cbn [denylist4_is_empty]; split; auto; [discriminate|].
  intros H0. specialize (H0 x). assert (0 < cnt (x :: l) x)%nat by (apply cnt_in; left; reflexivity). lia.
Qed.
Print Assumptions C09_history.

Definition deny_ex := [DAdd (P4 0xc0000200 24) false true; DAdd (P4 0x7f000000 8) false true;
  DAdd (P4 0x7f000000 8) true true; DAdd (P4 0xc0000201 24) false true; DRm (P4 0xc0000200 24); DRm (P4 0xc0000200 24)].
Example C09_history_witness : Forall wt_dop deny_ex /\
  deny_run [] deny_ex = ([OK; Err EINVAL; OK; Err EINVAL; OK; Err ESRCH], [P4 0x7f000000 8]).
Proof. split; [repeat constructor; vm_compute; congruence|vm_compute; reflexivity]. Qed.

(** Listing in pages: exact when no prefix was added twice. *)
Theorem C09_listing_partial : forall ops rs l caps, Forall wt_dop ops -> deny_run [] ops = (rs, l) -> NoDup l ->
  Forall (fun c => (1 <= c)%nat) caps -> (length l < length caps)%nat -> denylist4_display l caps = LDone l.
Proof.
  intros ops rs l caps _ _ Hn. apply display_ok. intros p. apply (NoDup_count_occ prefix4_dec l). exact Hn.
Qed.
Print Assumptions C09_listing_partial.

Example C09_listing_witness :
  let l := snd (deny_run [] [DAdd (P4 0xc0000200 24) false true; DAdd (P4 0xc0000000 24) false true; DAdd (P4 0xc0000100 24) false true]) in
  denylist4_display l [1; 2; 3; 4]%nat = LDone l /\ length l = 3%nat.
Proof. split; vm_compute; reflexivity. Qed.

(** The same prefix can be added twice, and then listing in pages repeats
    entries, or never ends when one entry fits in a page. *)
Theorem C09_listing_refuted : exists ops l, Forall wt_dop ops /\
  deny_run [] ops = ([OK; OK; OK], l) /\
  (exists caps r, Forall (fun c => (1 <= c)%nat) caps /\ denylist4_display l caps = LDone r /\ (length l < length r)%nat) /\
  (forall n, exists r, denylist4_display l (repeat 1%nat n) = LPending r /\ length r = n).
Proof.
  exists [DAdd (P4 0xc0000200 24) false true; DAdd (P4 0xc0000200 24) false true; DAdd (P4 0xc0000000 24) false true].
  eexists. split; [repeat constructor; vm_compute; congruence|]. split; [vm_compute; reflexivity|]. split.
  - exists [2; 2]%nat, [P4 0xc0000200 24; P4 0xc0000200 24; P4 0xc0000200 24; P4 0xc0000000 24].
    split; [repeat constructor|]. split; [vm_compute; reflexivity|]. cbn. lia.
  - set (l := [_; _; _]).
    assert (G : forall n, exists r, client (foreach_page prefix4_equals l) (repeat 1%nat n) (Some (P4 0xc0000200 24)) = LPending r /\ length r = n).
    { induction n as [|n (r & IH & Hr)]; [exists []; split; reflexivity|].
      exists (P4 0xc0000200 24 :: r). cbn [repeat client]. 
      replace (foreach_page prefix4_equals l 1 (Some (P4 0xc0000200 24))) with ([P4 0xc0000200 24], true, @None prefix4) by (vm_compute; reflexivity).
      cbn [last]. rewrite IH. cbn. auto. }
    intros [|n]; [exists []; split; reflexivity|]. destruct (G n) as (r & Hr & Hl).
    exists (P4 0xc0000200 24 :: r). unfold denylist4_display, list_pages. cbn [repeat client].
    replace (foreach_page prefix4_equals l 1 None) with ([P4 0xc0000200 24], true, @None prefix4) by (vm_compute; reflexivity).
    cbn [last]. rewrite Hr. cbn. auto.
Qed.
Print Assumptions C09_listing_refuted.
