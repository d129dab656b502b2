(** A client whose kernel accepts everything, and one whose kernel accepts what the first has sent *)
From Coq Require Import String.
Require Import Verif.Base Verif.Addr_Model Verif.Glob_Model Verif.Inst_Model Verif.Str_Model Verif.Json_Model Verif.File_Model Verif.File_Spec Verif.File_Objects Verif.File_Proofs Verif.File_Top.

Section Switch.
Context (U : uenv) (K : list (message (E := entry)) -> rc).
Definition with_kernel (k : list (message (E := entry)) -> rc) : uenv := UEnv (u_inet U) (u_nest U) (u_entry U) (u_setting U) (u_ctrl U) (u_mem U) k.
Notation U0 := (with_kernel (fun _ => OK)).
Notation U2 := (with_kernel K).

(** All messages from [w] to [w'] are accepted. *)
Definition upto (w w' : world) : Prop := forall p q, sent w' = p ++ q -> (List.length (sent w) < List.length p)%nat -> K p = OK.
Lemma upto_trans w w1 w' l : upto w w' -> sent w1 = sent w ++ l -> upto w1 w'.
Proof. intros X E p q Es Lp. apply (X p q Es). rewrite E, app_length in Lp. lia. Qed.
Lemma upto_first w w1 w' l : upto w w' -> sent w' = sent w1 ++ l -> upto w w1.
Proof. intros X E p q Es Lp. apply (X p (q ++ l)); [rewrite E, Es, app_assoc; reflexivity|exact Lp]. Qed.

Lemma request_switch m w w' : request U0 m w = (None, w') -> upto w w' -> request U2 m w = (None, w').
Proof.
  unfold request. cbn [u_kernel with_kernel]. intros [= <-] X. cbn [sent] in *. rewrite (X (sent w ++ [m]) []); [reflexivity|cbn [sent]; symmetry; apply app_nil_r|rewrite app_length; cbn; lia].
Qed.
Lemma try_switch h v cur w : try_entry U2 h v cur w = try_entry U0 h v cur w. Proof. reflexivity. Qed.
Lemma array_switch a k h : forall js cur w w', array_loop U0 a k h js cur w = (None, w') -> upto w w' -> array_loop U2 a k h js cur w = (None, w').
Proof.
  induction js as [|v js IH]; intros cur w w'; cbn [array_loop].
  - destruct cur as [[|x xs]|]; try (intros E _; exact E). apply request_switch.
  - rewrite !try_switch. destruct (try_entry U0 h v cur w) as [[c|c|e] w1] eqn:T; [| |discriminate].
    + intros E X. apply IH; [exact E|]. assert (S1 := try_sent U0 h v cur w). rewrite T in S1. cbn [snd] in S1. apply (upto_trans w w1 w' []); [exact X|rewrite app_nil_r; exact S1].
    + assert (S1 := try_sent U0 h v cur w). rewrite T in S1. cbn [snd] in S1. destruct (request U0 (entries_msg a k c) w1) as [[e|] w2] eqn:Rq; [discriminate|].
      assert (S2 := request_sent U0 (entries_msg a k c) w1). rewrite Rq in S2. cbn [snd] in S2.
      destruct (try_entry U0 h v None w2) as [[c'|c'|e] w3] eqn:T3; [| |]; try discriminate. assert (S3 := try_sent U0 h v None w2). rewrite T3 in S3. cbn [snd] in S3.
      intros E X. destruct (array_ok _ _ _ _ _ _ _ _ E) as (es & chunks & _ & _ & _ & S4).
      assert (Rq2 : request U2 (entries_msg a k c) w1 = (None, w2)).
      { apply request_switch; [exact Rq|]. apply (upto_first w1 w2 w' (map (entries_msg a k) chunks)); [|rewrite S4, S3; reflexivity]. apply (upto_trans w w1 w' []); [exact X|rewrite app_nil_r; exact S1]. }
      rewrite Rq2, !try_switch, T3. apply IH; [exact E|]. apply (upto_trans w w3 w' [entries_msg a k c]); [exact X|]. rewrite S3, S2, S1. reflexivity.
Qed.
Lemma handle_array_switch a k h v w w' : handle_array U0 a k h v w = (None, w') -> upto w w' -> handle_array U2 a k h v w = (None, w').
Proof. unfold handle_array. destruct v; try discriminate. apply array_switch. Qed.
Lemma globals_switch a v w w' : handle_globals U0 a v w = (None, w') -> upto w w' -> handle_globals U2 a v w = (None, w').
Proof.
  unfold handle_globals, alloc_msg. cbn [u_mem u_nest with_kernel sent allocs]. destruct (u_mem U (allocs w)); [|discriminate]. destruct (negb (u_nest U)); [discriminate|]. destruct (u_mem U (S (allocs w))); [|discriminate].
  change (map (fun x => let '(id, n, t) := x in Meta n (write_global U2 id t) false) settings) with (map (fun x => let '(id, n, t) := x in Meta n (write_global U0 id t) false) settings).
  destruct (handle_object v (map (fun x => let '(id, n, t) := x in Meta n (write_global U0 id t) false) settings) []) as [[e|] gs]; [discriminate|].
  intros E X. apply request_switch; [exact E|exact X].
Qed.

(** What is sent only grows. *)
Lemma tag_grows a m v w w' : xt_ok (a_xt a) -> In m (top_metas U0 a) -> mt_handler m v w = (None, w') -> exists l, sent w' = sent w ++ l.
Proof.
  intros X I E. unfold top_metas in I. cbn [app In] in I. destruct I as [<-|[<-|[<-|I]]].
  - injection E as <-. exists []. symmetry. apply app_nil_r.
  - injection E as <-. exists []. symmetry. apply app_nil_r.
  - cbn [mt_handler] in E. destruct (globals_ok _ _ _ _ _ E) as (gs & _ & Es). eexists. exact Es.
  - destruct (list_meta_in U0 a m X I) as (t & kd & P & h & _ & _ & Eh & _). rewrite Eh in E. unfold handle_array in E. destruct v as [| | |? ? ?|?|js|?]; try discriminate.
    destruct (array_ok _ _ _ _ _ _ _ _ E) as (es & chunks & _ & _ & _ & Es). eexists. exact Es.
Qed.
Lemma tag_switch a m v w w' : xt_ok (a_xt a) -> In m (top_metas U0 a) -> mt_handler m v w = (None, w') -> upto w w' ->
  exists m2, In m2 (top_metas U2 a) /\ mt_name m2 = mt_name m /\ mt_handler m2 v w = (None, w').
Proof.
  intros X I E Up. unfold top_metas in I |- *. cbn [app In] in I |- *. destruct I as [<-|[<-|[<-|I]]].
  - eexists. split; [left; reflexivity|]. split; [reflexivity|exact E].
  - eexists. split; [right; left; reflexivity|]. split; [reflexivity|exact E].
  - eexists. split; [right; right; left; reflexivity|]. split; [reflexivity|]. apply globals_switch; [exact E|exact Up].
  - cut (exists m2, In m2 (list_metas U2 a) /\ mt_name m2 = mt_name m /\ mt_handler m2 v w = (None, w')).
    { intros (m2 & J1 & J2). exists m2. split; [auto|exact J2]. }
    unfold list_metas in I |- *. destruct X as [X|X]; rewrite X in I |- *.
    + change (1 =? XT_SIIT) with true in *. cbn [In] in I |- *. destruct I as [<-|[<-|[<-|[]]]].
      * eexists. split; [left; reflexivity|]. split; [reflexivity|]. apply (handle_array_switch a Eamt (handle_eam_entry U0)); assumption.
      * eexists. split; [right; left; reflexivity|]. split; [reflexivity|]. apply (handle_array_switch a Denylist4 (handle_denylist_entry U0)); assumption.
      * eexists. split; [right; right; left; reflexivity|]. split; [reflexivity|]. apply (handle_array_switch a Denylist4 (handle_denylist_entry U0)); assumption.
    + change (2 =? XT_SIIT) with false in *. cbn [In] in I |- *. destruct I as [<-|[<-|[]]].
      * eexists. split; [left; reflexivity|]. split; [reflexivity|]. apply (handle_array_switch a Pool4 (handle_pool4_entry U0)); assumption.
      * eexists. split; [right; left; reflexivity|]. split; [reflexivity|]. apply (handle_array_switch a Bib (handle_bib_entry U0)); assumption.
Qed.
Lemma steps_grow a : xt_ok (a_xt a) -> forall d l w w', steps (top_metas U0 a) d l w w' -> exists l', sent w' = sent w ++ l'.
Proof.
  intros X. induction 1 as [d s|d k v l s s' Rm H IH|d k v l m s s1 s' Rm I Hm Sn E H IH]; [exists []; symmetry; apply app_nil_r|exact IH|].
  destruct IH as [l' ->]. destruct (tag_grows a m v s s1 X I E) as [l2 ->]. exists (l2 ++ l'). symmetry. apply app_assoc.
Qed.
Lemma steps_switch a : xt_ok (a_xt a) -> forall d l w w', steps (top_metas U0 a) d l w w' -> upto w w' -> steps (top_metas U2 a) d l w w'.
Proof.
  intros X. induction 1 as [d s|d k v l s s' Rm H IH|d k v l m s s1 s' Rm I Hm Sn E H IH]; intros Up; [constructor|apply st_comment; [exact Rm|exact (IH Up)]|].
  destruct (steps_grow a X _ _ _ _ H) as [l1 S1]. destruct (tag_grows a m v s s1 X I E) as [l2 S2].
  destruct (tag_switch a m v s s1 X I E (upto_first _ _ _ _ Up S1)) as (m2 & I2 & En & E2).
  apply (st_tag (top_metas U2 a) d k v l m2 s s1 s'); [exact Rm|exact I2| | |exact E2|exact (IH (upto_trans _ _ _ _ Up S2))].
  - unfold hits in *. rewrite En. exact Hm.
  - unfold seen in *. rewrite <- Sn. apply existsb_ext_in || (unfold hits; rewrite En; reflexivity).
Qed.
Lemma parse_switch a v w w' : xt_ok (a_xt a) -> parse_json U0 a v w = (None, w') -> upto w w' -> parse_json U2 a v w = (None, w').
Proof.
  intros X. rewrite !parse_json_top by exact X. assert (N0 := top_names U0 a X). assert (N2 := top_names U2 a X). intros E Up.
  apply object_iff in E; [|apply names_ok_D, N0|apply names_ok_Q, N0]. destruct E as (l & -> & St & M). apply object_iff; [apply names_ok_D, N2|apply names_ok_Q, N2|].
  exists l. split; [reflexivity|]. split; [apply steps_switch; assumption|]. intros m I Mm.
  unfold top_metas in I, M. cbn [app In] in I, M. destruct I as [<-|[<-|[<-|I]]].
  - apply (M (Meta (txt "instance") do_nothing true)); [left; reflexivity|reflexivity].
  - apply (M (Meta (txt "framework") do_nothing true)); [right; left; reflexivity|reflexivity].
  - discriminate.
  - destruct (list_meta_in U2 a m X I) as (t & k & P0 & h & _ & _ & _ & Em & _). congruence.
Qed.
Lemma ctrl_switch a i w w' : send_ctrl_msg U0 a i w = (None, w') -> upto w w' -> send_ctrl_msg U2 a i w = (None, w').
Proof.
  unfold send_ctrl_msg, alloc_msg. cbn [u_mem u_ctrl with_kernel sent allocs]. destruct (u_mem U (allocs w)); [|discriminate]. destruct (u_ctrl U); [|intros E _; exact E].
  intros E Up. apply request_switch; [exact E|exact Up].
Qed.
Lemma ctrl_grows a i w w' : send_ctrl_msg U0 a i w = (None, w') -> exists l, sent w' = sent w ++ l.
Proof.
  unfold send_ctrl_msg, alloc_msg. cbn [u_mem u_ctrl with_kernel sent allocs]. destruct (u_mem U (allocs w)); [|discriminate]. destruct (u_ctrl U); [|intros [= <-]; exists []; symmetry; apply app_nil_r].
  unfold request. cbn [u_kernel with_kernel sent]. intros [= <-]. cbn [sent]. eexists. reflexivity.
Qed.
Lemma prepare_type arg xt v n fl : xt_ok xt -> prepare_instance arg xt v = inr (n, fl) -> xt_ok (flags2xt fl).
Proof.
  intros X P. destruct (prepare_fwd _ _ _ _ _ P) as (l & fw & _ & (v0 & _ & T) & -> & _). destruct (lor_type xt fw X (framework_values _ _ T)) as [-> _]. exact X.
Qed.
Lemma do_parsing_switch xt force arg v w' : xt_ok xt -> do_parsing U0 xt force arg v (World [] 0) = (None, w') -> (forall p q, sent w' = p ++ q -> p <> [] -> K p = OK) ->
  do_parsing U2 xt force arg v (World [] 0) = (None, w').
Proof.
  intros X. unfold do_parsing. destruct (prepare_instance arg xt v) as [e|[n fl]] eqn:P; [discriminate|]. pose proof (prepare_type _ _ _ _ _ X P) as Xf.
  destruct (send_ctrl_msg U0 _ (Some _) _) as [[e|] w1] eqn:E1; [discriminate|]. destruct (parse_json U0 _ v w1) as [[e|] w2] eqn:E2; [discriminate|]. intros E3 Hk.
  destruct (ctrl_grows _ _ _ _ E1) as [l1 S1]. destruct (ctrl_grows _ _ _ _ E3) as [l3 S3].
  assert (S2 : exists l, sent w2 = sent w1 ++ l).
  { assert (E2' := E2). rewrite parse_json_top in E2' by exact Xf. assert (N0 := top_names U0 (About (flags2xt fl) n force) Xf). apply object_iff in E2'; [|apply names_ok_D, N0|apply names_ok_Q, N0]. destruct E2' as (l & -> & St & _). exact (steps_grow (About (flags2xt fl) n force) Xf _ _ _ _ St). }
  destruct S2 as [l2 S2]. assert (Up : upto (World [] 0) w'). { intros p q Es Lp. apply (Hk p q Es). intros ->. cbn in Lp. lia. }
  rewrite (ctrl_switch _ _ _ _ E1 (upto_first _ _ _ (l2 ++ l3) Up ltac:(rewrite S3, S2, app_assoc; reflexivity))).
  assert (Up1 := upto_trans _ _ _ _ Up S1).
  rewrite (parse_switch (About (flags2xt fl) n force) _ _ _ Xf E2 (upto_first _ _ _ _ Up1 S3)). apply ctrl_switch; [exact E3|]. exact (upto_trans _ _ _ _ Up1 S2).
Qed.
End Switch.
