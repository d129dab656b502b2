(** C78: the memory of the EAMT. *)
Require Import Verif.Base Verif.Addr_Model Verif.Addr_Spec Verif.Addr_Proofs.
Require Import Verif.Rtrie_Model Verif.Rtrie_Spec Verif.Rtrie_Hist Verif.Rtrie_Key.
Require Import Verif.Eam_Model Verif.Eam_Spec Verif.Eam_Proofs Verif.Eam_Bits Verif.Eam_Values Verif.Eam_Properties.
Require Import Verif.Nest_Spec Verif.Nest_Trie Verif.Nest_Steps Verif.Nest_Eam Verif.Nest_Properties.
Require Import Verif.Leak_Model Verif.Leak_Spec Verif.Leak_Proofs.

(** Whatever is done to a trie, the nodes on its list are allocated and
    different from each other, and what else is allocated is at most one node
    for each addition that ran out of memory halfway.  (The result [Ok] only
    says that no freed node was touched, see C08.) *)
Theorem C78_accounting : forall V (ops : list (trie_op V)) rs t, trie_run rtrie_init ops = Ok (rs, t) ->
  NoDup (t_list t) /\ (forall q, In q (t_list t) -> live t q) /\
  exists lost, NoDup lost /\ (length lost <= failed_adds ops rs)%nat /\
    (forall q, live t q <-> In q (t_list t) \/ In q lost) /\
    (forall q, live (rtrie_clean t) q <-> In q lost).
Proof.
  intros V ops rs t H. destruct (run_G ops _ rs t 0%nat init_G H) as (L & Hn & HG).
  pose proof (clean_G t L HG) as (C1 & C2 & _). destruct HG as (G1 & G2 & G3).
  split; [|split].
  - clear - G1. revert G1. generalize (t_list t). intros l. induction l as [|x l IH]; cbn [app]; intros N; [constructor|].
    inversion N as [|? ? N1 N2]; subst. constructor; [|auto]. intros Hx. apply N1. apply in_or_app. auto.
  - intros q Hq. apply G2. apply in_or_app. auto.
  - exists L. split; [exact C1|]. split; [exact Hn|]. split; [intros q; rewrite G2; apply in_app_iff|exact C2].
Qed.

Lemma Gn_clean : forall V (t : trie V) q, Gn t 0 -> ~ live (rtrie_clean t) q.
Proof.
  intros V t q (L & Hn & HG). destruct L; [|cbn in Hn; lia]. destruct (clean_G t [] HG) as (_ & H & _). intros Hq.
  apply H in Hq. exact Hq.
Qed.

Lemma add_quiet : forall (t : trie eam) ok1 ok2 k v r t', Gn t 0 -> rtrie_add t ok1 ok2 k v = Ok (r, t') ->
  r <> Err ENOMEM -> r <> Err EINVAL -> Gn t' 0.
Proof.
  intros t ok1 ok2 k v r t' HG H N1 N2. pose proof (rtrie_add_G _ _ _ _ _ _ _ _ HG H) as HG'.
  assert (E : failed_add (TAdd ok1 ok2 k v) r = false); [|rewrite E in HG'; exact HG'].
  cbn [failed_add]. destruct ok1; [|reflexivity]. destruct r as [|[]]; try reflexivity; congruence.
Qed.

Definition Q (t : eamt) : Prop := Gn (trie6 t) 0 /\ Gn (trie4 t) 0.

Lemma eamt__rm_Q : forall t p6 p4 m1 m2 r t', Q t -> eamt__rm t p6 p4 m1 m2 = Ok (r, t') -> Q t'.
Proof.
  intros t p6 p4 m1 m2 r t' (H6 & H4) H. unfold eamt__rm in H.
  apply bind_ok in H. destruct H as ([r6 t6] & E6 & H). cbn [fst snd trie6 trie4] in H. pose proof (rtrie_rm_G _ _ _ _ _ _ H6 E6) as G6.
  destruct r6; [|injection H as <- <-; split; assumption].
  apply bind_ok in H. destruct H as ([r4 t4] & E4 & H). cbn [fst snd trie6 trie4] in H. pose proof (rtrie_rm_G _ _ _ _ _ _ H4 E4) as G4.
  destruct r4; injection H as <- <-; split; assumption.
Qed.

Lemma eam_step_Q : forall t o r t', Q t -> wt_op o -> eam_step t o = Ok (r, t') -> remembered o r -> Q t'.
Proof.
  intros t o r t' HQ Hw H Hr. pose proof HQ as (H6 & H4). destruct o as [e f m|o6 o4 m1 m2|]; cbn [eam_step remembered wt_op] in *.
  - unfold eamt_add in H. destruct (validate_prefixes_legal e Hw) as [(E & Hl)|(E & _)]; rewrite E in H; [|injection H as <- <-; exact HQ].
    destruct Hr as (N1 & N2). specialize (N2 Hl).
    apply bind_ok in H. destruct H as (v & Ev & H). destruct v; [|injection H as <- <-; exact HQ].
    apply bind_ok in H. destruct H as ([r6 t6] & E6 & H). cbn [fst snd trie6 trie4 ecount] in H.
    destruct r6 as [|x6].
    + assert (G6 : Gn t6 0) by (eapply add_quiet; [exact H6|exact E6|discriminate|discriminate]).
      apply bind_ok in H. destruct H as ([r4 t4] & E4 & H). cbn [fst snd trie6 trie4 ecount] in H.
      destruct r4 as [|x4].
      * injection H as <- <-. split; [exact G6|]. eapply add_quiet; [exact H4|exact E4|discriminate|discriminate].
      * apply bind_ok in H. destruct H as ([rr tr] & Er & H). injection H as <- <-. cbn [snd]. split; cbn [trie6 trie4].
        -- eapply rtrie_rm_G; eauto.
        -- eapply add_quiet; [exact H4|exact E4|exact N1|exact N2].
    + injection H as <- <-. split; cbn [trie6 trie4]; [|exact H4]. eapply add_quiet; [exact H6|exact E6|exact N1|exact N2].
  - unfold eamt_rm in H. destruct o6 as [p6|]; destruct o4 as [p4|].
    + apply bind_ok in H. destruct H as (a & Ea & H). destruct a; [|injection H as <- <-; exact HQ].
      apply bind_ok in H. destruct H as (b & Eb & H). destruct b; [|injection H as <- <-; exact HQ].
      destruct (eamt_entry_equals _ _); [|injection H as <- <-; exact HQ]. eapply eamt__rm_Q; eauto.
    + apply bind_ok in H. destruct H as (a & Ea & H). destruct a; [|injection H as <- <-; exact HQ]. eapply eamt__rm_Q; eauto.
    + apply bind_ok in H. destruct H as (a & Ea & H). destruct a; [|injection H as <- <-; exact HQ]. eapply eamt__rm_Q; eauto.
    + injection H as <- <-. exact HQ.
  - injection H as <- <-. unfold eamt_flush. split; cbn [trie6 trie4]; apply flush_G; assumption.
Qed.

Lemma eam_run_Q : forall ops t rs t', Q t -> Forall wt_op ops -> eam_run t ops = Ok (rs, t') -> Forall2 remembered ops rs -> Q t'.
Proof.
  induction ops as [|o ops IH]; intros t rs t' HQ Hw H Hr; cbn [eam_run] in H.
  - injection H as <- <-. exact HQ.
  - apply bind_ok in H. destruct H as ([r t1] & E1 & H). apply bind_ok in H. destruct H as ([rs' t2] & E2 & H).
    injection H as <- <-. cbn [fst snd] in *. inversion Hr; subst. inversion Hw; subst.
    eapply IH; [|eassumption|exact E2|eassumption]. eapply eam_step_Q; eauto.
Qed.

Lemma alloc_Q : Q eamt_alloc.
Proof. split; apply init_G. Qed.

(** The table's destructor frees every node that was ever allocated, also when
    prefixes are nested and entries have been lost (C05, C06), provided no
    addition failed for lack of memory. *)
Theorem C78_release : forall ops rs t, Forall wt_op ops -> eam_run eamt_alloc ops = Ok (rs, t) ->
  Forall2 remembered ops rs -> nothing_live (eamt_release t).
Proof.
  intros ops rs t Hw H Hr. destruct (eam_run_Q ops _ rs t alloc_Q Hw H Hr) as (H6 & H4).
  intros q. split; apply Gn_clean; assumption.
Qed.

Lemma NInv_root : forall V (t : trie V) tbl, NInv t tbl -> t_root t = None -> t_list t = [].
Proof.
  intros V t tbl (tr & (Hr & _ & _ & _ & Hl & _) & _) H. rewrite H in Hr. destruct tr; [|discriminate Hr].
  cbn [nfp] in Hl. apply Permutation_nil. symmetry. exact Hl.
Qed.

Lemma flush_clean : forall V (t : trie V) tbl, NInv t tbl -> Gn t 0 -> forall q, ~ live (rtrie_flush t) q.
Proof.
  intros V t tbl HN HG q. unfold rtrie_flush. destruct (t_root t) eqn:E.
  - exact (Gn_clean V t q HG).
  - intros Hq. destruct HG as (L & Hn & HG). destruct L; [|cbn in Hn; lia]. destruct HG as (_ & H & _). apply H in Hq.
    rewrite (NInv_root V t tbl HN E) in Hq. exact Hq.
Qed.

Lemma remembered_run : forall ops tbl rs tbl', Forall memory_ok ops -> espec_run tbl ops rs tbl' -> Forall2 remembered ops rs.
Proof.
  induction ops as [|o ops IH]; intros tbl rs tbl' Hm H; inversion H; subst; constructor.
  - inversion Hm as [|? ? Hm1 Hm2]; subst.
    match goal with S : espec_step _ _ _ _ |- _ => inversion S; subst end; cbn [remembered memory_ok] in *;
      try exact Logic.I; (split; [try discriminate; contradiction|intros Hl; try discriminate; contradiction]).
  - inversion Hm; subst. eapply IH; eauto.
Qed.

Lemma orderly_wt : forall ops tbl rs tbl', orderly_history tbl ops -> espec_run tbl ops rs tbl' -> Forall wt_op ops.
Proof.
  induction ops as [|o ops IH]; intros tbl rs tbl' H S; [constructor|]. cbn [orderly_history] in H. destruct H as (Hw & _ & Hn).
  inversion S; subst. constructor; [exact Hw|]. eapply IH; [eapply Hn; eassumption|eassumption].
Qed.

(** `eamt flush` frees every node, after any history in which general prefixes
    precede the particular ones inside them (see C05_C06_C08_orderly_partial)
    and memory does not run out.  Missing for the full statement: the other
    histories, for which it is false (below). *)
Theorem C78_flush_partial : forall ops rs t, orderly_history [] ops -> Forall memory_ok ops ->
  eam_run eamt_alloc ops = Ok (rs, t) -> nothing_live (eamt_flush t).
Proof.
  intros ops rs t Ho Hm H. destruct (neam_run_ok ops eamt_alloc [] nalloc_inv Ho) as (rs' & t' & tbl & E & S & I).
  rewrite E in H. injection H as <- <-. destruct I as (I6 & I4 & _).
  destruct (eam_run_Q ops _ rs' t' alloc_Q (orderly_wt _ _ _ _ Ho S) E (remembered_run _ _ _ _ Hm S)) as (H6 & H4).
  intros q. split; eapply flush_clean; eauto.
Qed.

(** Not so in general: without memory running out, and with every answer a
    success, a flush can leave an entry behind.  Listing the table still shows
    it, while the counter says that there are none. *)
Definition stuck_history := lost_history ++ [ERm None (Some (P4 0x0a010200 24)) true true].
Theorem C78_flush_refuted : exists ops rs t, Forall wt_op ops /\ Forall memory_ok ops /\
  eam_run eamt_alloc ops = Ok (rs, t) /\ Forall (eq OK) rs /\
  ~ nothing_live (eamt_flush t) /\
  eamt_foreach (eamt_flush t) None = Ok (OK, [Eam (p6n 1) (P4 0x0a000000 8)]) /\ ecount (eamt_flush t) = 0.
Proof.
  exists stuck_history.
  destruct (eam_run eamt_alloc stuck_history) as [[rs t]| |] eqn:E; [|vm_compute in E; discriminate|vm_compute in E; discriminate].
  exists rs, t.
  assert (Hrs : rs = repeat OK 7).
  { assert (H : match eam_run eamt_alloc stuck_history with Ok (x, _) => x | _ => [] end = repeat OK 7) by (vm_compute; reflexivity).
    rewrite E in H. exact H. }
  assert (Hf : eamt_foreach (eamt_flush t) None = Ok (OK, [Eam (p6n 1) (P4 0x0a000000 8)])).
  { assert (H : match eam_run eamt_alloc stuck_history with Ok (_, t) => eamt_foreach (eamt_flush t) None | _ => UB end
      = Ok (OK, [Eam (p6n 1) (P4 0x0a000000 8)])) by (vm_compute; reflexivity).
    rewrite E in H. exact H. }
  assert (Hl : exists q, live (trie4 (eamt_flush t)) q).
  { assert (H : match eam_run eamt_alloc stuck_history with
       | Ok (_, t) => match t_heap (trie4 (eamt_flush t)) 0 with Some _ => true | None => false end | _ => false end = true) by (vm_compute; reflexivity).
    rewrite E in H. exists 0%nat. unfold live. destruct (t_heap _ _); [discriminate|discriminate H]. }
  split.
  { unfold stuck_history, lost_history. cbn [app]. repeat apply Forall_cons; try apply Forall_nil;
      first [apply add_wt; vm_compute; reflexivity | apply rm_wt; vm_compute; reflexivity]. }
  split.
  { unfold stuck_history, lost_history. cbn [app]. repeat apply Forall_cons; try apply Forall_nil; cbn; try exact Logic.I; repeat split. }
  split; [reflexivity|]. split; [subst rs; repeat constructor|]. split; [|split; [exact Hf|reflexivity]].
  intros Hn. destruct Hl as (q & Hq). destruct (Hn q) as (_ & H). exact (H Hq).
Qed.

(** When the second allocation of an addition fails, the first is never freed:
    the table reports -ENOMEM, and a node is still allocated after the
    destructor. *)
Theorem C78_failed_allocation_refuted : exists ops rs t, Forall wt_op ops /\
  eam_run eamt_alloc ops = Ok (rs, t) /\ rs = [OK; Err ENOMEM] /\ ~ nothing_live (eamt_release t).
Proof.
  set (ops := [add 1 0x0a010100 24 false; EAdd (Eam (p6n 2) (P4 0x0a020200 24)) false (AMem true false true true true)]).
  exists ops. destruct (eam_run eamt_alloc ops) as [[rs t]| |] eqn:E; [|vm_compute in E; discriminate|vm_compute in E; discriminate].
  exists rs, t. split; [|split; [reflexivity|split]].
  - repeat apply Forall_cons; try apply Forall_nil; [apply add_wt; vm_compute; reflexivity|].
    cbn [wt_op]. exact (add_wt 2 0x0a020200 24 false ltac:(vm_compute; reflexivity)).
  - assert (H : match eam_run eamt_alloc ops with Ok (x, _) => x | _ => [] end = [OK; Err ENOMEM]) by (vm_compute; reflexivity).
    rewrite E in H. exact H.
  - assert (H : match eam_run eamt_alloc ops with
       | Ok (_, t) => match t_heap (trie6 (eamt_release t)) 1 with Some _ => true | None => false end | _ => false end = true) by (vm_compute; reflexivity).
    rewrite E in H. intros Hn. destruct (Hn 1%nat) as (Hx & _). apply Hx. unfold live. destruct (t_heap _ _); [discriminate|discriminate H].
Qed.

(** A concrete history: nested prefixes, a removal, a flush that frees what is
    left. *)
Definition tidy_history := [add 1 0x0a000000 8 true; add 2 0x0a010000 16 true; add 3 0x0a020000 16 true; add 4 0xc0a80000 16 true;
  ERm None (Some (P4 0x0a010000 16)) true true].
Example C78_example : exists rs t, eam_run eamt_alloc tidy_history = Ok (rs, t) /\ Forall memory_ok tidy_history /\
  Forall2 remembered tidy_history rs /\
  length (t_list (trie6 t)) = 5%nat /\ live (trie6 t) 0 /\ ~ live (trie6 (eamt_flush t)) 0.
Proof.
  destruct (eam_run eamt_alloc tidy_history) as [[rs t]| |] eqn:E; [|vm_compute in E; discriminate|vm_compute in E; discriminate].
  assert (H : match eam_run eamt_alloc tidy_history with
       | Ok (rs, t) => (rs, length (t_list (trie6 t)), match t_heap (trie6 t) 0 with Some _ => true | None => false end,
                        match t_heap (trie6 (eamt_flush t)) 0 with Some _ => true | None => false end) | _ => ([], 0%nat, false, true) end
       = (repeat OK 5, 5%nat, true, false)) by (vm_compute; reflexivity).
  rewrite E in H. injection H as H1 H2 H3 H4. exists rs, t. split; [reflexivity|]. split.
  { unfold tidy_history. repeat apply Forall_cons; try apply Forall_nil; cbn; try exact Logic.I; repeat split. }
  split; [subst rs; repeat (apply Forall2_cons; [cbn; try exact Logic.I; split; discriminate|]); apply Forall2_nil|].
  split; [exact H2|]. unfold live. split; [destruct (t_heap (trie6 t) 0); [discriminate|discriminate H3]|].
  change (trie6 (eamt_flush t)) with (rtrie_flush (trie6 t)). destruct (t_heap (rtrie_flush (trie6 t)) 0); [discriminate H4|]. intros N. apply N. reflexivity.
Qed.

Print Assumptions C78_accounting.
Print Assumptions C78_release.
Print Assumptions C78_flush_partial.
Print Assumptions C78_flush_refuted.
Print Assumptions C78_failed_allocation_refuted.
