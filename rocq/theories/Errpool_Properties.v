(** Theorems about the texts of errors. *)
Require Import Verif.Base Verif.Addr_Model Verif.Rtrie_Model Verif.Pool4_Model Verif.Bib_Model Verif.Inst_Model Verif.Nla_Model Verif.Nla_Proofs Verif.Req_Model Verif.Req_Spec Verif.Errpool_Model Verif.Errpool_Spec.
Local Ltac Zify.zify_post_hook ::= idtac.

(** Between requests *)
Definition idle (p : pool) : Prop := p = Pool false 0 [] 0.
(** During one *)
Definition busy (p : pool) (said : list Z) : Prop :=
  p_enabled p = true /\ p_size p = zlen (concat (p_db p)) /\ p_heap p = 2 * Z.of_nat (length (p_db p)) /\ concat (p_db p) = said.

Lemma flushed : forall db heap, flush_list db heap = heap - 2 * Z.of_nat (length db).
Proof. induction db as [|m db IH]; intros heap; cbn [flush_list length]; [lia|]. rewrite IH. lia. Qed.

Lemma copied : forall db size pos out, pos + zlen (concat db) < size -> get_copy size pos db out = Ok (out ++ concat db).
Proof.
  induction db as [|m db IH]; intros size pos out L; cbn [get_copy concat] in *.
  - replace (pos <? size) with true by (unfold zlen in L; cbn in L; lia). rewrite app_nil_r. reflexivity.
  - rewrite zlen_app in L. pose proof (zlen_nonneg _ (concat db)). replace (pos + zlen m + 1 <=? size) with true by lia. rewrite IH by lia. rewrite app_assoc. reflexivity.
Qed.

Lemma logged : forall packet mem mem' text p said, busy p said -> busy (log_err packet mem mem' text p) (said ++ kept packet mem mem' text).
Proof.
  intros packet mem mem' text p said (E & S1 & H & C). unfold log_err, kept, error_pool_add_message. destruct mem; cbn [negb orb].
  2:{ rewrite orb_true_r, app_nil_r. repeat split; assumption. }
  rewrite orb_false_r. cbn [p_enabled p_size p_db p_heap]. destruct packet; cbn [orb].
  { rewrite app_nil_r. repeat split; cbn [p_enabled p_size p_db p_heap]; try assumption. lia. }
  rewrite E. destruct mem'; cbn [negb orb].
  - unfold busy. cbn [p_enabled p_size p_db p_heap]. rewrite concat_app, zlen_app, app_length, S1, H, C. cbn [concat length]. rewrite app_nil_r. repeat split; try reflexivity; lia.
  - rewrite app_nil_r. repeat split; cbn [p_enabled p_size p_db p_heap]; try assumption. lia.
Qed.

Lemma acts_ok : forall l p said, busy p said -> exists p' said', run_acts l p = Ok (answers_of said l, p') /\ busy p' said'.
Proof.
  induction l as [|a l IH]; intros p said B; [exists p, said; split; [reflexivity|exact B]|]. destruct a as [packet mem mem' text|mem]; cbn [run_acts answers_of].
  - apply IH. apply logged. exact B.
  - unfold error_pool_get_message, get_alloc. destruct B as (E & S1 & H & C). rewrite E. destruct mem; cbn [negb].
    + unfold get_rest. rewrite copied by lia. cbn [bind fst snd app].
      destruct (IH (Pool (p_enabled p) 0 [] (flush_list (p_db p) (p_heap p))) []) as (p' & said' & R & B').
      { unfold busy. cbn [p_enabled p_size p_db p_heap]. rewrite flushed, H. split; [exact E|]. split; [reflexivity|]. split; [cbn [length]; lia|reflexivity]. }
      rewrite R. cbn [bind fst snd]. rewrite C. exists p', said'. split; [reflexivity|exact B'].
    + cbn [bind fst snd]. destruct (IH p said) as (p' & said' & R & B'); [repeat split; assumption|]. rewrite R. cbn [bind fst snd]. exists p', said'. split; [reflexivity|exact B'].
Qed.

Lemma request_ok : forall l, run_request l (Pool false 0 [] 0) = Ok (answers_of [] l, Pool false 0 [] 0).
Proof.
  intros l. unfold run_request. destruct (acts_ok l (error_pool_activate (Pool false 0 [] 0)) []) as (p & said & R & (E & S1 & H & C)); [repeat split; reflexivity|].
  rewrite R. cbn [bind fst snd]. unfold error_pool_deactivate. rewrite flushed, H. do 2 f_equal. f_equal. lia.
Qed.

Lemma outside_ok : forall packet mem mem' text, log_err packet mem mem' text (Pool false 0 [] 0) = Pool false 0 [] 0.
Proof. intros [] [] [] text; reflexivity. Qed.

(** Whatever requests come, and whatever is logged during and between them: each answer has the text of all that was logged for that request since the answer
    before, in order, 255 characters of each at most, and nothing of other requests; no buffer is written beyond its end; when the
    module has nothing to do, nothing is allocated. Missing: rules of iptables being checked at the same time ([C97_race_refuted], [C97_foreign_refuted]). *)
Theorem C97_told_partial : forall l, run_items l error_pool_setup = Ok (answers_to l, Pool false 0 [] 0).
Proof.
  change error_pool_setup with (Pool false 0 [] 0). induction l as [|x l IH]; [reflexivity|]. destruct x as [packet mem mem' text|a]; cbn [run_items answers_to].
  - rewrite outside_ok. exact IH.
  - rewrite request_ok. cbn [bind fst snd]. rewrite IH. reflexivity.
Qed.

(** The text that is too long for a reply is cut within its buffer, and the client is told what is left. *)
Theorem C97_cut : forall w text e, 200 <= a_cap w -> a_text w = text ->
  exists t, reply_text (a_cap w) (zlen text + 1) text = Ok t /\ told w (Err e) = Refused (errcode e) t /\ (t = text \/ (t = firstn 128 text /\ 128 < zlen text)).
Proof.
  intros w text e C T. unfold reply_text, told. rewrite T. change (28 + 8) with 36. unfold padding.
  destruct (36 + (4 + (zlen text + 1) + (- (zlen text + 1)) mod 4) <=? a_cap w) eqn:E.
  - exists text. auto.
  - pose proof (Z.mod_pos_bound (- (zlen text + 1)) 4). replace (128 <? zlen text + 1) with true by lia. eexists. split; [reflexivity|]. split; [reflexivity|]. right. split; [reflexivity|lia].
Qed.

(** A rule of iptables that is not valid, added while a request is being answered: if that is logged after the buffer has been allocated, the text is
    written beyond the end of it. *)
Theorem C97_race_refuted : exists p size, run_acts [Log false true true [104; 105]] (error_pool_activate error_pool_setup) = Ok ([], p) /\
  get_alloc true p = inr size /\ get_rest size p = Ok ([104; 105], Pool true 0 [] 0) /\
  get_rest size (snd (target_checkentry false (repeat 97 40) p)) = UB.
Proof. eexists _, _. split; [vm_compute; reflexivity|]. split; [vm_compute; reflexivity|]. split; vm_compute; reflexivity. Qed.

(** If it is logged before that, and the request has failed, the one who made it is told about someone else's rule as well. *)
Theorem C97_foreign_refuted : exists p q, run_acts [Log false true true [104; 105]] (error_pool_activate error_pool_setup) = Ok ([], p) /\
  error_pool_get_message true (snd (target_checkentry false [98; 97; 100] p)) = Ok (inr [104; 105; 98; 97; 100], q) /\
  answers_of [] [Log false true true [104; 105]; Get true] = [inr [104; 105]].
Proof. eexists _, _. split; [vm_compute; reflexivity|]. split; vm_compute; reflexivity. Qed.

(** Two requests: the first is told two texts, one of them cut, and leaves another behind; the second is told its own. *)
Example C97_case : answers_to [Outside false true true [1]; Request [Log false true true [65; 66]; Log true true true [67]; Log false true false [68]; Get false; Log false true true (repeat 90 300); Get true; Log false true true [69]];
    Request [Log false true true [70]; Get true; Get true]] =
  [[inl ENOMEM; inr ([65; 66] ++ repeat 90 255)]; [inr [70]; inr []]] /\
  (exists t, reply_text 200 301 (repeat 90 300) = Ok t /\ length t = 128%nat) /\ reply_text 100 71 (repeat 90 70) = UB.
Proof. split; [vm_compute; reflexivity|]. split; [eexists; split; vm_compute; reflexivity|]. vm_compute. reflexivity. Qed.

Print Assumptions C97_told_partial.
Print Assumptions C97_cut.
Print Assumptions C97_race_refuted.
Print Assumptions C97_foreign_refuted.
