(** Lemmas about the queue of sessions to send. *)
Require Import Verif.Base Verif.Addr_Model Verif.Pool4_Model Verif.Fsm_Model Verif.Bib_Model Verif.Joold_Model Verif.Joold_Spec.
Local Ltac Zify.zify_post_hook ::= idtac.

Section Queue.
Context {A : Type}.
Implicit Types q : jq A.

Definition size (l : list A) : Z := Z.of_nat (length l).
Lemma size_app : forall a b, size (a ++ b) = size a + size b.
Proof. intros. unfold size. rewrite app_length. lia. Qed.
Lemma size_nonneg : forall a, 0 <= size a.
Proof. intros. unfold size. lia. Qed.
Lemma u32_small : forall x, 0 <= x < 2^32 -> u32 x = x.
Proof. intros. unfold u32. apply Z.mod_small. lia. Qed.

Definition counted q : Prop := q_count q = size (q_list q) /\ size (q_list q) < 2^32.

(** When a batch goes out. *)
Definition due (c : jcfg) (now : Z) q : Prop :=
  q_list q <> [] /\ (overdue c (q_last q) now \/ (q_ack q = true /\ (q_ad q = true \/ j_max c <= size (q_list q)))).

Lemma should_send_spec : forall c now q, counted q -> should_send c now q = true <-> due c now q.
Proof.
  intros c now q [Hc Hs]. unfold should_send, due, overdue. rewrite Hc.
  assert (E : size (q_list q) = 0 <-> q_list q = []) by (destruct (q_list q); unfold size; cbn [length]; split; intros; [reflexivity|reflexivity|lia|discriminate]).
  destruct (Z.eqb_spec (size (q_list q)) 0) as [E0|E0]; [split; [discriminate|intros [H _]; tauto]|].
  destruct (time_before _ now); [tauto|]. destruct (q_ack q); cbn [negb]; [|split; [discriminate|intros (_ & [H|[H _]]); discriminate]].
  destruct (q_ad q); [tauto|]. rewrite Z.leb_le. split; [tauto|]. intros (_ & [H|(_ & [H|H])]); [discriminate..|assumption].
Qed.

Definition ended (l : list A) (b : bool) : bool := match l with [] => false | _ => b end.

Lemma prepare_none : forall c now q, counted q -> 1 <= j_max c < 2^32 ->
  let n := Z.to_nat (j_max c) in
  (due c now q /\ prepare c now q None = (JQ false (ended (skipn n (q_list q)) (q_ad q)) (skipn n (q_list q)) (size (skipn n (q_list q))) now, firstn n (q_list q))) \/
  (~ due c now q /\ prepare c now q None = (q, [])).
Proof.
  intros c now q Hq Hm n. pose proof (should_send_spec c now q Hq) as S. unfold prepare.
  destruct (should_send c now q) eqn:E; cbn [negb]; [left; split; [apply S; reflexivity|]|right; split; [intros D; apply S in D; discriminate|reflexivity]].
  destruct Hq as [Hc Hs]. rewrite Hc. destruct (Z.leb_spec (size (q_list q)) (j_max c)) as [L|L].
  - assert (Hn : (length (q_list q) <= n)%nat) by (unfold size in L; lia).
    rewrite (skipn_all2 (n := n)) by exact Hn. rewrite (firstn_all2 (n := n)) by exact Hn. rewrite firstn_all, skipn_all. rewrite Z.sub_diag. rewrite u32_small by lia. cbn [ended]. reflexivity.
  - assert (Hk : size (skipn n (q_list q)) = size (q_list q) - j_max c) by (unfold size in *; rewrite skipn_length; lia).
    rewrite u32_small by lia. rewrite <- Hk. fold n.
    assert (Hz : size (skipn n (q_list q)) > 0) by lia.
    destruct (Z.eqb_spec (size (skipn n (q_list q))) 0) as [Z0|_]; [lia|]. destruct (skipn n (q_list q)) eqn:Es; [unfold size in Hz; cbn [length] in Hz; lia|]. reflexivity.
Qed.

(** The queue once [e]'s sessions and ack are in, before anything is sent. *)
Definition arrives q (e : jev A) : jq A :=
  if j_enabled (v_cfg e) then
    JQ (q_ack q || match v_op e with JAck => true | _ => false end)
       (q_ad q || match v_op e with JAdvertise (_ :: _) mem => mem | _ => false end)
       (q_list q ++ (if admits q e then offered (v_op e) else []))
       (q_count q + size (if admits q e then offered (v_op e) else [])) (q_last q)
  else q.
(** Events after which nothing is sent, whatever the queue. *)
Definition mute q (e : jev A) : Prop :=
  j_enabled (v_cfg e) = false \/
  match v_op e with JAdd _ mem => mem = false | JAdvertise l mem => l = [] \/ mem = false \/ q_ad q = true | JAck | JClean => False end.

Lemma arrives_none : forall q, JQ (q_ack q || false) (q_ad q || false) (q_list q ++ []) (q_count q + size []) (q_last q) = q.
Proof. intros [a b l n z]. cbn [q_ack q_ad q_list q_count q_last]. rewrite !orb_false_r, app_nil_r. unfold size. cbn [length]. rewrite Z.add_0_r. reflexivity. Qed.

Lemma prepare_some : forall c now q s,
  prepare c now q (Some s) = prepare c now (if too_many_sessions c q then q else JQ (q_ack q) (q_ad q) (q_list q ++ [s]) (u32 (q_count q + 1)) (q_last q)) None.
Proof. reflexivity. Qed.

Lemma jstep_spec : forall q e r q' o, counted q -> size (q_list q) + size (offered (v_op e)) < 2^32 -> 1 <= j_max (v_cfg e) < 2^32 ->
  jstep q (v_op e) (v_cfg e) (v_now e) (v_room e) = (r, q', o) ->
  (mute q e /\ q' = arrives q e /\ o = Quiet) \/
  (~ mute q e /\ counted (arrives q e) /\ let p := prepare (v_cfg e) (v_now e) (arrives q e) None in q' = fst p /\ o = send_to_userspace (v_room e) (snd p)).
Proof.
  intros q [op c now room] r q' o [Hc Hs] Ho Hm E. cbn [v_op v_cfg v_now v_room] in *. unfold mute, arrives, admits, jstep in *. cbn [v_op v_cfg v_now v_room].
  destruct (j_enabled c); cbn [negb andb] in *; [|injection E as _ <- <-; left; auto].
  pose proof (size_nonneg (q_list q)) as Hp.
  destruct op as [s mem| | |l mem]; cbn [offered] in *.
  - destruct mem; cbn [andb]; [|injection E as _ <- <-; left; rewrite arrives_none; auto].
    right. split; [intros [X|X]; discriminate|]. rewrite !orb_false_r. change (size [s]) with 1 in *.
    rewrite prepare_some in E. unfold too_many_sessions in E. rewrite u32_small in E by lia. fold (size (q_list q)).
    assert (X : (if if q_ad q then false else j_capacity c <=? q_count q then q else JQ (q_ack q) (q_ad q) (q_list q ++ [s]) (q_count q + 1) (q_last q)) =
      JQ (q_ack q) (q_ad q) (q_list q ++ (if q_ad q || (size (q_list q) <? j_capacity c) then [s] else [])) (q_count q + size (if q_ad q || (size (q_list q) <? j_capacity c) then [s] else [])) (q_last q)).
    { rewrite Hc. destruct (q_ad q) eqn:Ea; cbn [orb]; [reflexivity|]. destruct (Z.leb_spec (j_capacity c) (size (q_list q))) as [L|L].
      - assert (X : (size (q_list q) <? j_capacity c) = false) by lia. rewrite X. rewrite app_nil_r. change (size []) with 0. rewrite Z.add_0_r. destruct q; cbn in *; congruence.
      - assert (X : (size (q_list q) <? j_capacity c) = true) by lia. rewrite X. reflexivity. }
    rewrite X in E. clear X. destruct (prepare c now _ None) as [q1 l1]. injection E as _ <- <-. split; [|auto].
    split; cbn [q_count q_list]; rewrite size_app; [lia|]. destruct (_ || _); [change (size [s]) with 1|change (size []) with 0]; lia.
  - right. split; [intros [X|[]]; discriminate|]. rewrite app_nil_r, orb_true_r, orb_false_r. change (size []) with 0. rewrite Z.add_0_r.
    split; [split; assumption|]. destruct (prepare c now _ None) as [q1 l1]. injection E as _ <- <-. auto.
  - right. split; [intros [X|[]]; discriminate|]. rewrite arrives_none. split; [split; assumption|]. destruct (prepare c now q None) as [q1 l1]. injection E as _ <- <-. auto.
  - destruct l as [|s l]; [injection E as _ <- <-; left; assert (X : (if mem && negb (q_ad q) then @nil A else []) = []) by (destruct (_ && _); reflexivity); rewrite X, arrives_none; auto|].
    destruct mem; cbn [negb andb] in *; [|injection E as _ <- <-; left; rewrite arrives_none; auto].
    destruct (q_ad q) eqn:Ea; cbn [negb orb] in *; [injection E as _ <- <-; left|right].
    { split; [auto|split; [|reflexivity]]. rewrite app_nil_r. change (size []) with 0. rewrite Z.add_0_r, ?orb_false_r. destruct q; cbn in *; congruence. }
    split; [intros [X|[X|[X|X]]]; discriminate|]. rewrite !orb_false_r.
    pose proof (size_nonneg (s :: l)). fold (size (s :: l)) in E. rewrite (u32_small (size (s :: l))), u32_small in E by lia.
    split; [split; cbn [q_count q_list]; rewrite size_app; lia|]. destruct (prepare c now _ None) as [q1 l1]. injection E as _ <- <-. auto.
Qed.

Lemma send_batch : forall room l, batch (send_to_userspace (A := A) room l) = l.
Proof. intros room [|x l]; [reflexivity|]. cbn [send_to_userspace]. destruct room; [|reflexivity]. destruct (_ <=? _)%nat; reflexivity. Qed.

(** One event: the sessions stay in order, and either nothing leaves or a batch does. *)
Lemma jstep_cases : forall q e r q' o, counted q -> size (q_list q) + size (offered (v_op e)) < 2^32 -> 1 <= j_max (v_cfg e) < 2^32 ->
  jstep q (v_op e) (v_cfg e) (v_now e) (v_room e) = (r, q', o) ->
  counted q' /\ q_list q ++ entered (q, e, o) = batch o ++ q_list q' /\
  ((o = Quiet /\ q' = arrives q e /\ (mute q e \/ ~ due (v_cfg e) (v_now e) (arrives q e))) \/
   (~ mute q e /\ due (v_cfg e) (v_now e) (arrives q e) /\ let n := Z.to_nat (j_max (v_cfg e)) in let l := q_list (arrives q e) in
    o = send_to_userspace (v_room e) (firstn n l) /\ firstn n l <> [] /\
    q' = JQ false (ended (skipn n l) (q_ad (arrives q e))) (skipn n l) (size (skipn n l)) (v_now e))).
Proof.
  intros q e r q' o Hq Ho Hm E. assert (Hl : q_list (arrives q e) = q_list q ++ entered (q, e, o)).
  { unfold arrives, entered, admits. destruct (j_enabled (v_cfg e)); [reflexivity|]. cbn [andb]. rewrite app_nil_r. reflexivity. }
  assert (Ha : counted (arrives q e)).
  { destruct Hq as [Hc Hs]. unfold arrives. destruct (j_enabled (v_cfg e)) eqn:Ee; [|split; assumption]. split; cbn [q_count q_list]; rewrite size_app; [lia|].
    destruct (admits q e); [assumption|]. change (size []) with 0. lia. }
  destruct (jstep_spec q e r q' o Hq Ho Hm E) as [(M & -> & ->)|(M & _ & X)].
  - split; [exact Ha|]. split; [rewrite Hl; reflexivity|]. left. auto.
  - cbn zeta in X. destruct X as [-> ->]. destruct (prepare_none (v_cfg e) (v_now e) (arrives q e) Ha Hm) as [[D P]|[D P]]; rewrite P; cbn [fst snd].
    + assert (N : firstn (Z.to_nat (j_max (v_cfg e))) (q_list (arrives q e)) <> []).
      { destruct D as [D _]. destruct (q_list (arrives q e)) as [|x y]; [congruence|]. destruct (Z.to_nat (j_max (v_cfg e))) eqn:En; [lia|]. discriminate. }
      split; [split; cbn [q_count q_list]; [reflexivity|]; destruct Ha as [_ Ha]; unfold size in *; rewrite skipn_length; lia|].
      split; [rewrite send_batch; cbn [q_list]; rewrite firstn_skipn; symmetry; exact Hl|]. right. auto.
    + split; [exact Ha|]. split; [symmetry; exact Hl|]. left. auto.
Qed.

Lemma jrun_app : forall h1 h2 (q : jq A), jrun q (h1 ++ h2) = let '(t1, q1) := jrun q h1 in let '(t2, q2) := jrun q1 h2 in (t1 ++ t2, q2).
Proof.
  induction h1 as [|e h1 IH]; intros h2 q; cbn [jrun app]; [destruct (jrun q h2); reflexivity|].
  destruct (jstep q (v_op e) (v_cfg e) (v_now e) (v_room e)) as [[r q'] o]. rewrite IH. destruct (jrun q' h1) as [t1 q1]. destruct (jrun q1 h2). reflexivity.
Qed.

Definition fits q (h : list (jev A)) : Prop := size (q_list q) + size (all_offered h) < 2^32 /\ Forall (fun e => 1 <= j_max (v_cfg e) < 2^32) h.

Lemma fits_step : forall q e h q' o, fits q (e :: h) -> q_list q ++ entered (q, e, o) = batch o ++ q_list q' -> fits q' h.
Proof.
  intros q e h q' o [F G] E. split; [|inversion G; assumption]. assert (X : size (q_list q) + size (entered (q, e, o)) = size (batch o) + size (q_list q')) by (rewrite <- !size_app, E; reflexivity).
  unfold all_offered in *. cbn [flat_map] in F. rewrite size_app in F. pose proof (size_nonneg (batch o)).
  assert (size (entered (q, e, o)) <= size (offered (v_op e))) by (unfold entered; destruct (admits q e); [lia|apply size_nonneg]). lia.
Qed.

(** Anything one event ensures, with its order, holds along a history. *)
Lemma jrun_ok : forall h q tr q', counted q -> fits q h -> jrun q h = (tr, q') ->
  counted q' /\ q_list q ++ flat_map entered tr = flat_map left tr ++ q_list q' /\ map (fun x => snd (fst x)) tr = h /\
  forall q0 e o, In (q0, e, o) tr -> counted q0 /\ size (q_list q0) + size (offered (v_op e)) < 2^32 /\ exists r q1, jstep q0 (v_op e) (v_cfg e) (v_now e) (v_room e) = (r, q1, o).
Proof.
  induction h as [|e h IH]; intros q tr q' Hq F E; cbn [jrun] in E.
  { injection E as <- <-. split; [exact Hq|]. split; [apply app_nil_r|]. split; [reflexivity|intros q0 e o []]. }
  destruct (jstep q (v_op e) (v_cfg e) (v_now e) (v_room e)) as [[r q1] o] eqn:E1. destruct (jrun q1 h) as [tr1 q2] eqn:E2. injection E as <- <-.
  assert (Ho : size (q_list q) + size (offered (v_op e)) < 2^32).
  { destruct F as [F _]. unfold all_offered in F. cbn [flat_map] in F. rewrite size_app in F. pose proof (size_nonneg (flat_map (fun e => offered (v_op e)) h)). lia. }
  assert (Hm : 1 <= j_max (v_cfg e) < 2^32) by (destruct F as [_ F]; inversion F; assumption).
  destruct (jstep_cases q e r q1 o Hq Ho Hm E1) as (C1 & L1 & _). destruct (IH q1 tr1 q2 C1 (fits_step q e h q1 o F L1) E2) as (C2 & L2 & M2 & S2).
  split; [exact C2|]. split; [|split].
  - cbn [flat_map]. rewrite app_assoc, L1, <- app_assoc, L2, app_assoc. reflexivity.
  - cbn [map fst snd]. rewrite M2. reflexivity.
  - intros q0 e0 o0 [X|X]; [injection X as <- <- <-; eauto 6|exact (S2 q0 e0 o0 X)].
Qed.

Lemma fits_app : forall h1 h2 q tr q', counted q -> fits q (h1 ++ h2) -> jrun q h1 = (tr, q') -> counted q' /\ fits q' h2.
Proof.
  induction h1 as [|e h1 IH]; intros h2 q tr q' Hq F E; cbn [jrun app] in *; [injection E as <- <-; auto|].
  destruct (jstep q (v_op e) (v_cfg e) (v_now e) (v_room e)) as [[r q1] o] eqn:E1. destruct (jrun q1 h1) as [tr1 q2] eqn:E2. injection E as <- <-.
  assert (Ho : size (q_list q) + size (offered (v_op e)) < 2^32).
  { destruct F as [F _]. unfold all_offered in F. cbn [flat_map] in F. rewrite size_app in F. pose proof (size_nonneg (flat_map (fun e => offered (v_op e)) (h1 ++ h2))). lia. }
  assert (Hm : 1 <= j_max (v_cfg e) < 2^32) by (destruct F as [_ F]; inversion F; assumption).
  destruct (jstep_cases q e r q1 o Hq Ho Hm E1) as (C1 & L1 & _). exact (IH h2 q1 tr1 q2 C1 (fits_step q e _ q1 o F L1) E2).
Qed.

Lemma fits_head : forall q e h, fits q (e :: h) -> size (q_list q) + size (offered (v_op e)) < 2^32 /\ 1 <= j_max (v_cfg e) < 2^32.
Proof.
  intros q e h [F G]. split; [|inversion G; assumption]. unfold all_offered in F. cbn [flat_map] in F. rewrite size_app in F. pose proof (size_nonneg (flat_map (fun e => offered (v_op e)) h)). lia.
Qed.

Lemma start : forall now h, sane h -> counted (joold_alloc (A := A) now) /\ fits (joold_alloc now) h.
Proof. intros now h [H1 H2]. split; [split; reflexivity|]. split; [exact H1|exact H2]. Qed.

End Queue.
