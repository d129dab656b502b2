(** The samples of pool4 after any history: what they hold. *)
Require Import Verif.Base Verif.Addr_Model Verif.Addr_Spec Verif.Addr_Proofs Verif.Rtrie_Model Verif.Paging.
Require Import Verif.Pool4_Model Verif.Pool4_Spec Verif.Pool4_Proofs Verif.Pool4_Trees Verif.Pool4_Hist Verif.Pool4_Listing Verif.Pool4_Properties.

Lemma samples_exact : forall ops log p pr t, Forall wt_op ops -> run pool4db_alloc [] ops = Ok (log, p) -> no_enomem log -> get_trees p pr = Some t ->
  let l := samples (tmark t) in tree_ok (tmark t) /\ NoDup l /\
    (forall m a q, held log pr m a q <-> exists r, In (m, r) l /\ r_addr r = a /\ r_len r = 32 /\ r_min r <= q <= r_max r) /\
    (forall m r1 r2 q, In (m, r1) l -> In (m, r2) l -> r_addr r1 = r_addr r2 -> r_min r1 <= q <= r_max r1 -> r_min r2 <= q <= r_max r2 -> r1 = r2) /\
    Forall (fun x => r_len (snd x) = 32) l.
Proof.
  intros ops log p pr t Hw H Hn Hg l. pose proof (reach _ _ _ Hw H Hn) as HI.
  apply get_trees_of in Hg. destruct Hg as [-> _]. destruct (HI pr) as ((O1 & _) & H2 & _). subst l.
  split; [exact O1|]. split; [apply samples_nodup; exact O1|]. split; [|split].
  - intros m a q. rewrite <- H2. unfold tin, inr, rin. split.
    + intros (tb & Hf & r & Hr & Ha & Hq). exists r. pose proof (proj2 O1 _ _ (find_in _ _ _ Hf)) as (_ & W & _). rewrite Forall_forall in W.
      specialize (W r Hr). split; [apply samples_in; exists tb; split; [apply find_in; exact Hf|exact Hr]|].
      split; [exact Ha|]. split; [apply W|exact Hq].
    + intros (r & Hi & Ha & _ & Hq). apply samples_in in Hi. destruct Hi as (tb & Hi & Hr). exists tb.
      split; [apply find_some; [apply O1|exact Hi]|]. exists r. auto.
  - intros m r1 r2 q Hi1 Hi2 Ha Hq1 Hq2. apply samples_in in Hi1, Hi2. destruct Hi1 as (tb & Hi1 & Hr1). destruct Hi2 as (tb2 & Hi2 & Hr2).
    pose proof (find_some _ _ _ (proj1 O1) Hi1) as F1. pose proof (find_some _ _ _ (proj1 O1) Hi2) as F2. rewrite F1 in F2. injection F2 as <-.
    destruct (proj2 O1 _ _ Hi1) as (_ & _ & T3 & _). destruct (ordered_cases _ _ _ T3 Hr1 Hr2) as [E|[B|B]]; [exact E|..]; unfold before in B; lia.
  - apply Forall_forall. intros (m, r) Hi. apply samples_in in Hi. destruct Hi as (tb & Hi & Hr). destruct (proj2 O1 _ _ Hi) as (_ & W & _). rewrite Forall_forall in W. apply (W r Hr).
Qed.

(** A listing that is resumed after one of its samples *)
Lemma samples_resume : forall tr a x b cap, tree_ok tr -> samples tr = a ++ x :: b -> pool4db_foreach_sample tr cap (Some x) = (firstn cap b, (cap <? length b)%nat, None).
Proof.
  intros tr a x b cap Ok4 E. rewrite page_same; [|exact Ok4|right; exists x; split; [reflexivity|rewrite E; apply in_elt]]. rewrite E.
  rewrite (foreach_page_skip seqb seqb_spec); [apply foreach_page_none|]. pose proof (samples_nodup tr Ok4) as Nd. rewrite E in Nd. apply NoDup_remove_2 in Nd.
  intros C. apply Nd. apply in_or_app. left. exact C.
Qed.
