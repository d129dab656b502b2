(** Theorems about the queue of sessions to synchronise. *)
Require Import Verif.Base Verif.Addr_Model Verif.Pool4_Model Verif.Fsm_Model Verif.Bib_Model Verif.Joold_Model Verif.Joold_Spec Verif.Joold_Proofs.
Local Ltac Zify.zify_post_hook ::= idtac.

(** ** C29 *)
(** A history of the example: two sessions per packet, space for three. *)
Definition jconf := JCfg true 2000 3 2 1.
Definition at_ (now : Z) (op : jop Z) : jev Z := JEv op jconf now (Some 36%nat).
Definition jhistory : list (jev Z) :=
  [at_ 1 (JAdd 10 true); at_ 2 (JAdd 11 true); at_ 3 (JAdd 12 true); at_ 4 (JAdd 13 true); at_ 5 (JAdd 14 true); at_ 6 (JAdd 15 true);
   at_ 7 JAck; at_ 8 (JAdvertise [20; 21; 22] true); at_ 9 (JAdd 16 true); at_ 3000 JClean; at_ 3001 JAck; at_ 3002 JAck].
Example C29_case : sane jhistory /\
  map left (fst (jrun (joold_alloc 0) jhistory)) = [[]; [10; 11]; []; []; []; []; [12; 13]; []; []; [14; 20]; [21; 22]; [16]] /\
  map entered (fst (jrun (joold_alloc 0) jhistory)) = [[10]; [11]; [12]; [13]; [14]; []; []; [20; 21; 22]; [16]; []; []; []] /\
  q_list (snd (jrun (joold_alloc 0) jhistory)) = [].
Proof.
  split; [|vm_compute; auto]. split; [reflexivity|]. unfold jhistory. repeat (constructor; [cbn; lia|]). constructor.
Qed.

(** Sessions leave the queue in the order they entered it, each once, and the
    ones that have not left are still there. *)
Theorem C29_order : forall (A : Type) now (h : list (jev A)) tr q, sane h -> jrun (joold_alloc now) h = (tr, q) ->
  map (fun x => snd (fst x)) tr = h /\ flat_map entered tr = flat_map left tr ++ q_list q.
Proof.
  intros A now h tr q Hs E. destruct (start now h Hs) as [C F]. destruct (jrun_ok h _ tr q C F E) as (_ & L & M & _). split; [exact M|exact L].
Qed.
Print Assumptions C29_order.

(** No packet has more sessions than configured, nor is empty; sessions get lost
    only if there is no memory for the packet or they do not fit in it. *)
Theorem C29_packets : forall (A : Type) now (h : list (jev A)) tr q q0 e o, sane h -> jrun (joold_alloc now) h = (tr, q) -> In (q0, e, o) tr ->
  Z.of_nat (length (batch o)) <= j_max (v_cfg e) /\
  (forall l, o = Sent l -> l <> []) /\
  (forall l, o = Lost l -> l <> [] /\ match v_room e with None => True | Some n => (n < length l)%nat end).
Proof.
  intros A now h tr q q0 e o Hs E Hi. destruct (start now h Hs) as [C F]. destruct (jrun_ok h _ tr q C F E) as (_ & _ & M & S).
  destruct (S q0 e o Hi) as (C0 & Ho & r & q1 & E1).
  assert (Hm : 1 <= j_max (v_cfg e) < 2^32).
  { destruct Hs as [_ Hs]. rewrite Forall_forall in Hs. apply Hs. rewrite <- M. exact (in_map (fun x => snd (fst x)) tr (q0, e, o) Hi). }
  destruct (jstep_cases q0 e r q1 o C0 Ho Hm E1) as (_ & _ & [(-> & _)|(_ & _ & X)]).
  - split; [cbn; lia|]. split; discriminate.
  - cbn zeta in X. destruct X as (-> & N & _). rewrite send_batch. split; [rewrite firstn_length; lia|].
    destruct (firstn (Z.to_nat (j_max (v_cfg e))) (q_list (arrives q0 e))) as [|x l]; [congruence|]. unfold send_to_userspace. split; intros l' El.
    + destruct (v_room e); [|discriminate]. destruct (_ <=? _)%nat; [|discriminate]. injection El as <-. discriminate.
    + destruct (v_room e) as [n|]; [destruct (Nat.leb_spec (length (x :: l)) n); [discriminate|]|]; injection El as <-; split; try discriminate; auto.
Qed.
Print Assumptions C29_packets.

(** Between one packet and the next there is an ack, or the deadline passes. *)
Lemma quiet_steps : forall (A : Type) (h : list (jev A)) q tr q', counted q -> fits q h -> jrun q h = (tr, q') -> flat_map left tr = [] -> ~ Exists acks h ->
  q_ack q' = q_ack q /\ q_last q' = q_last q.
Proof.
  induction h as [|e h IH]; intros q tr q' C F E Hl Ha; cbn [jrun] in E; [injection E as <- <-; auto|].
  destruct (jstep q (v_op e) (v_cfg e) (v_now e) (v_room e)) as [[r q1] o] eqn:E1. destruct (jrun q1 h) as [tr1 q2] eqn:E2. injection E as <- <-.
  cbn [flat_map left] in Hl. apply app_eq_nil in Hl. destruct Hl as [Hb Hl].
  assert (Ho : size (q_list q) + size (offered (v_op e)) < 2^32).
  { destruct F as [F _]. unfold all_offered in F. cbn [flat_map] in F. rewrite size_app in F. pose proof (size_nonneg (flat_map (fun e => offered (v_op e)) h)). lia. }
  assert (Hm : 1 <= j_max (v_cfg e) < 2^32) by (destruct F as [_ F]; inversion F; assumption).
  destruct (jstep_cases q e r q1 o C Ho Hm E1) as (C1 & L1 & X). destruct (IH q1 tr1 q2 C1 (fits_step q e h q1 o F L1) E2 Hl (fun X => Ha (Exists_cons_tl _ X))) as [-> ->].
  destruct X as [(_ & -> & _)|(_ & _ & X)].
  - unfold arrives. destruct (j_enabled (v_cfg e)) eqn:Ee; [|auto]. cbn [q_ack q_last]. split; [|reflexivity].
    destruct (v_op e) eqn:Eo; rewrite ?orb_false_r; try reflexivity. exfalso. apply Ha. apply Exists_cons_hd. split; assumption.
  - cbn zeta in X. destruct X as (-> & N & _). rewrite send_batch in Hb. congruence.
Qed.

Theorem C29_outstanding : forall (A : Type) now (h1 h2 : list (jev A)) e1 e2 tr1 q1 r1 q2 o1 tr2 q3 r2 q4 o2,
  sane (h1 ++ e1 :: h2 ++ [e2]) ->
  jrun (joold_alloc now) h1 = (tr1, q1) -> jstep q1 (v_op e1) (v_cfg e1) (v_now e1) (v_room e1) = (r1, q2, o1) ->
  jrun q2 h2 = (tr2, q3) -> jstep q3 (v_op e2) (v_cfg e2) (v_now e2) (v_room e2) = (r2, q4, o2) ->
  o1 <> Quiet -> o2 <> Quiet -> flat_map left tr2 = [] ->
  Exists acks (h2 ++ [e2]) \/ overdue (v_cfg e2) (v_now e1) (v_now e2).
Proof.
  intros A now h1 h2 e1 e2 tr1 q1 r1 q2 o1 tr2 q3 r2 q4 o2 Hs E1 S1 E2 S2 N1 N2 Hq.
  destruct (start now _ Hs) as [C0 F0].
  destruct (fits_app h1 _ _ tr1 q1 C0 F0 E1) as [C1 F1]. destruct (fits_head _ _ _ F1) as [O1 M1].
  destruct (jstep_cases q1 e1 r1 q2 o1 C1 O1 M1 S1) as (C2 & L1 & [(X & _)|(_ & _ & X)]); [congruence|]. cbn zeta in X. destruct X as (_ & _ & Q2).
  pose proof (fits_step q1 e1 _ q2 o1 F1 L1) as F2. destruct (fits_app h2 [e2] q2 tr2 q3 C2 F2 E2) as [C3 F3]. destruct (fits_head _ _ _ F3) as [O3 M3].
  destruct (jstep_cases q3 e2 r2 q4 o2 C3 O3 M3 S2) as (_ & _ & [(X & _)|(_ & D & _)]); [congruence|].
  assert (A1 : q_ack q2 = false /\ q_last q2 = v_now e1) by (rewrite Q2; auto).
  assert (F2' : fits q2 h2).
  { destruct F2 as [F2 F2']. split; [|apply Forall_app in F2'; apply F2']. unfold all_offered in *. rewrite flat_map_app, size_app in F2. pose proof (size_nonneg (flat_map (fun e => offered (v_op e)) [e2])). lia. }
  destruct (Exists_dec acks (h2 ++ [e2])) as [X|X]; [| left; exact X |right].
  { intros e. unfold acks. destruct (v_op e); try (right; intros [Y _]; discriminate). destruct (j_enabled (v_cfg e)); [left; auto|right; intros [_ Y]; discriminate]. }
  destruct (quiet_steps A h2 q2 tr2 q3 C2 F2' E2 Hq) as [A2 A3]; [intros Y; apply X; apply Exists_app; left; exact Y|].
  destruct A1 as [A0 A1]. rewrite A0 in A2. rewrite A1 in A3.
  assert (Ae : q_ack (arrives q3 e2) = false /\ q_last (arrives q3 e2) = v_now e1).
  { unfold arrives. destruct (j_enabled (v_cfg e2)) eqn:Ee; [|auto]. cbn [q_ack q_last]. split; [|exact A3]. rewrite A2. destruct (v_op e2) eqn:Eo; try reflexivity.
    exfalso. apply X. apply Exists_app. right. apply Exists_cons_hd. split; assumption. }
  destruct Ae as [Ae1 Ae2]. destruct D as (_ & [D|[D _]]); [rewrite Ae2 in D; exact D|congruence].
Qed.
Print Assumptions C29_outstanding.

(** The queue is within its capacity, unless an advertisement has not been sent
    completely yet.  ("The queue never exceeds its capacity" as such is false, see
    [C29_capacity_refuted].) *)
Definition advertising {A} (tr : list (jq A * jev A * outcome A)) (q : jq A) : Prop :=
  exists tr1 q0 e o tr2, tr = tr1 ++ (q0, e, o) :: tr2 /\ is_advertise e = true /\ admits q0 e = true /\ offered (v_op e) <> [] /\
    Forall (fun x => q_list (fst (fst x)) <> []) tr2 /\ q_list q <> [].

Lemma capacity_inv : forall (A : Type) now K (h : list (jev A)) tr q, sane h -> 0 <= K -> Forall (fun e => j_capacity (v_cfg e) <= K) h -> jrun (joold_alloc now) h = (tr, q) ->
  (q_ad q = false /\ size (q_list q) <= K) \/ (q_ad q = true /\ advertising tr q).
Proof.
  intros A now K h. induction h as [|e h IH] using rev_ind; intros tr q Hs HK Hc E.
  { cbn [jrun] in E. injection E as <- <-. left. split; [reflexivity|exact HK]. }
  rewrite jrun_app in E. destruct (jrun (joold_alloc now) h) as [tr0 q0] eqn:E0. cbn [jrun] in E.
  destruct (jstep q0 (v_op e) (v_cfg e) (v_now e) (v_room e)) as [[r q1] o] eqn:E1. injection E as <- <-.
  destruct (start now _ Hs) as [C0 F0]. destruct (fits_app h [e] _ tr0 q0 C0 F0 E0) as [C1 F1]. destruct (fits_head _ _ _ F1) as [O1 M1].
  assert (Hs0 : sane h).
  { destruct Hs as [H1 H2]. split; [|apply Forall_app in H2; apply H2]. unfold all_offered in *. rewrite flat_map_app, app_length in H1. lia. }
  apply Forall_app in Hc. destruct Hc as [Hc Hk]. inversion Hk as [|? ? Hk' _]; subst. specialize (IH tr0 q0 Hs0 HK Hc eq_refl).
  destruct (jstep_cases q0 e r q1 o C1 O1 M1 E1) as (C2 & L & X).
  (* the queue when e's sessions are in *)
  assert (Y : (q_ad (arrives q0 e) = false /\ size (q_list (arrives q0 e)) <= K) \/
              (q_ad (arrives q0 e) = true /\ (q_list q1 <> [] -> advertising (tr0 ++ [(q0, e, o)]) q1))).
  { destruct IH as [[Ha Hl]|[Ha (t1 & qa & ea & oa & t2 & Et & B1 & B2 & B3 & B4 & B5)]].
    - unfold arrives. destruct (j_enabled (v_cfg e)) eqn:Ee; [|left; auto]. cbn [q_ad q_list]. rewrite Ha. cbn [orb].
      destruct (v_op e) as [s mem| | |l mem] eqn:Eo; cbn [offered].
      + left. split; [reflexivity|]. unfold admits. rewrite Ee, Eo, Ha. cbn [andb orb]. destruct mem; cbn [andb]; [|rewrite app_nil_r; exact Hl].
        destruct (Z.ltb_spec (Z.of_nat (length (q_list q0))) (j_capacity (v_cfg e))); [rewrite size_app; change (size [s]) with 1; unfold size; lia|rewrite app_nil_r; exact Hl].
      + left. split; [reflexivity|]. destruct (admits q0 e); rewrite app_nil_r; exact Hl.
      + left. split; [reflexivity|]. destruct (admits q0 e); rewrite app_nil_r; exact Hl.
      + destruct l as [|x l]; [left; split; [reflexivity|]; destruct (admits q0 e); rewrite app_nil_r; exact Hl|].
        destruct mem; [right; split; [reflexivity|]|left; split; [reflexivity|]; unfold admits; rewrite Ee, Eo; cbn [andb]; rewrite app_nil_r; exact Hl].
        intros Hn. exists tr0, q0, e, o, []. split; [reflexivity|]. unfold is_advertise, admits. rewrite Ee, Eo, Ha. cbn [offered]. split; [reflexivity|]. split; [reflexivity|]. split; [discriminate|]. split; [constructor|exact Hn].
    - right. split; [unfold arrives; destruct (j_enabled (v_cfg e)); [cbn [q_ad]; rewrite Ha; reflexivity|exact Ha]|].
      intros Hn. exists t1, qa, ea, oa, (t2 ++ [(q0, e, o)]). split; [rewrite Et, <- app_assoc; reflexivity|]. split; [exact B1|]. split; [exact B2|]. split; [exact B3|]. split; [|exact Hn].
      apply Forall_app. split; [exact B4|]. constructor; [exact B5|constructor]. }
  destruct X as [(-> & -> & _)|(_ & _ & X)].
  - destruct Y as [Y|[Y1 Y2]]; [left; exact Y|right]. split; [exact Y1|]. apply Y2. clear - Y1 IH.
    destruct IH as [[Ha _]|[_ (_ & _ & _ & _ & _ & _ & _ & _ & _ & _ & Hn)]].
    + unfold arrives in *. destruct (j_enabled (v_cfg e)) eqn:Ee; [|congruence]. cbn [q_ad q_list] in *. rewrite Ha in Y1. cbn [orb] in Y1. unfold admits. rewrite Ee, Ha. destruct (v_op e) as [| | |[|x l] mem]; try discriminate. subst mem. cbn. intros X. apply app_eq_nil in X. destruct X; discriminate.
    + unfold arrives. destruct (j_enabled (v_cfg e)); [|exact Hn]. cbn [q_list]. intros X. apply app_eq_nil in X. tauto.
  - cbn zeta in X. destruct X as (_ & _ & ->). cbn [q_ad q_list] in *. destruct (skipn (Z.to_nat (j_max (v_cfg e))) (q_list (arrives q0 e))) as [|x l] eqn:Es; cbn [ended].
    + left. split; [reflexivity|exact HK].
    + destruct Y as [[Y1 Y2]|[Y1 Y2]]; [left|right].
      * split; [exact Y1|]. rewrite <- Es. unfold size in *. rewrite skipn_length. lia.
      * split; [exact Y1|]. apply Y2. discriminate.
Qed.

Theorem C29_capacity_partial : forall (A : Type) now K (h : list (jev A)) tr q, sane h -> 0 <= K -> Forall (fun e => j_capacity (v_cfg e) <= K) h -> jrun (joold_alloc now) h = (tr, q) ->
  Z.of_nat (length (q_list q)) <= K \/ advertising tr q.
Proof. intros A now K h tr q Hs HK Hc E. destruct (capacity_inv A now K h tr q Hs HK Hc E) as [[_ X]|[_ X]]; [left; exact X|right; exact X]. Qed.
Print Assumptions C29_capacity_partial.

Theorem C29_capacity_refuted : exists (h : list (jev Z)) tr q, sane h /\ Forall (fun e => j_capacity (v_cfg e) = 3) h /\ jrun (joold_alloc 0) h = (tr, q) /\
  Z.of_nat (length (q_list q)) > 3.
Proof.
  exists [at_ 1 (JAdvertise [1; 2; 3] true); at_ 2 (JAdd 4 true); at_ 3 (JAdd 5 true); at_ 4 (JAdd 6 true)]. eexists _, _.
  split; [split; [reflexivity|]; repeat (constructor; [cbn; lia|]); constructor|]. split; [repeat (constructor; [reflexivity|]); constructor|].
  split; [vm_compute; reflexivity|]. vm_compute. reflexivity.
Qed.
Print Assumptions C29_capacity_refuted.

(** When the last packet left (or the instance was created), and whether it was
    acknowledged since. *)
Fixpoint last_sent {A} (now : Z) (tr : list (jq A * jev A * outcome A)) : Z :=
  match tr with [] => now | (_, e, o) :: tr' => last_sent (match batch o with [] => now | _ => v_now e end) tr' end.
Fixpoint acked {A} (b : bool) (tr : list (jq A * jev A * outcome A)) : bool :=
  match tr with
  | [] => b
  | (_, e, o) :: tr' => acked (match batch o with [] => b || (j_enabled (v_cfg e) && match v_op e with JAck => true | _ => false end) | _ => false end) tr'
  end.

Lemma seen : forall (A : Type) (h : list (jev A)) q tr q', counted q -> fits q h -> jrun q h = (tr, q') ->
  q_last q' = last_sent (q_last q) tr /\ q_ack q' = acked (q_ack q) tr.
Proof.
  induction h as [|e h IH]; intros q tr q' C F E; cbn [jrun] in E; [injection E as <- <-; auto|].
  destruct (jstep q (v_op e) (v_cfg e) (v_now e) (v_room e)) as [[r q1] o] eqn:E1. destruct (jrun q1 h) as [tr1 q2] eqn:E2. injection E as <- <-.
  destruct (fits_head _ _ _ F) as [O1 M1]. destruct (jstep_cases q e r q1 o C O1 M1 E1) as (C1 & L1 & X).
  destruct (IH q1 tr1 q2 C1 (fits_step q e h q1 o F L1) E2) as [-> ->]. cbn [last_sent acked].
  destruct X as [(-> & -> & _)|(_ & _ & X)].
  - cbn [batch]. unfold arrives. destruct (j_enabled (v_cfg e)) eqn:Ee; cbn [andb]; [auto|rewrite orb_false_r; auto].
  - cbn zeta in X. destruct X as (-> & N & ->). rewrite send_batch. cbn [q_last q_ack]. destruct (firstn _ _); [congruence|auto].
Qed.

(** Once the deadline has passed, the timer (like any other event) sends the
    sessions that wait, as many as fit in a packet. *)
Theorem C29_deadline : forall (A : Type) now (h : list (jev A)) tr q e r q' o, sane (h ++ [e]) -> jrun (joold_alloc now) h = (tr, q) ->
  v_op e = JClean \/ v_op e = JAck -> j_enabled (v_cfg e) = true -> overdue (v_cfg e) (last_sent now tr) (v_now e) ->
  jstep q (v_op e) (v_cfg e) (v_now e) (v_room e) = (r, q', o) ->
  batch o = firstn (Z.to_nat (j_max (v_cfg e))) (q_list q).
Proof.
  intros A now h tr q e r q' o Hs E Ho He Hd E1. destruct (start now _ Hs) as [C0 F0]. destruct (fits_app h [e] _ tr q C0 F0 E) as [C1 F1]. destruct (fits_head _ _ _ F1) as [O1 M1].
  assert (F0' : fits (joold_alloc now) h).
  { destruct F0 as [F0 F0']. split; [|apply Forall_app in F0'; apply F0']. unfold all_offered in *. rewrite flat_map_app, size_app in F0. pose proof (size_nonneg (flat_map (fun e => offered (v_op e)) [e])). lia. }
  destruct (seen A h _ tr q C0 F0' E) as [Hl _]. cbn [joold_alloc q_last] in Hl.
  assert (Hq : q_list (arrives q e) = q_list q /\ q_last (arrives q e) = last_sent now tr /\ ~ mute q e).
  { unfold arrives, admits, mute. rewrite He. cbn [q_list q_last]. destruct Ho as [-> | ->]; cbn [offered andb]; rewrite app_nil_r; (split; [reflexivity|split; [exact Hl|intros [X|[]]; discriminate]]). }
  destruct Hq as (Hq1 & Hq2 & Hq3). destruct (jstep_cases q e r q' o C1 O1 M1 E1) as (_ & _ & [(-> & _ & [X|X])|(_ & _ & X)]).
  - contradiction.
  - destruct (q_list q) as [|x l] eqn:El; [rewrite firstn_nil; reflexivity|]. exfalso. apply X. split; [rewrite Hq1; discriminate|]. left. rewrite Hq2. exact Hd.
  - cbn zeta in X. destruct X as (-> & _ & _). rewrite send_batch, Hq1. reflexivity.
Qed.
Print Assumptions C29_deadline.

(** An acknowledgment has the next packet sent if it would be full, or if an
    advertisement is under way.  (Otherwise what waits keeps waiting: "once
    acknowledged, pending sessions are sent" as such is false, see [C29_ack_refuted].) *)
Theorem C29_ack_partial : forall (A : Type) now (h : list (jev A)) tr q e r q' o, sane (h ++ [e]) -> jrun (joold_alloc now) h = (tr, q) ->
  acks e -> (j_max (v_cfg e) <= Z.of_nat (length (q_list q)) \/ q_ad q = true) ->
  jstep q (v_op e) (v_cfg e) (v_now e) (v_room e) = (r, q', o) ->
  batch o = firstn (Z.to_nat (j_max (v_cfg e))) (q_list q).
Proof.
  intros A now h tr q e r q' o Hs E [Ho He] Hd E1. destruct (start now _ Hs) as [C0 F0]. destruct (fits_app h [e] _ tr q C0 F0 E) as [C1 F1]. destruct (fits_head _ _ _ F1) as [O1 M1].
  assert (Hq : q_list (arrives q e) = q_list q /\ q_ack (arrives q e) = true /\ q_ad (arrives q e) = q_ad q /\ ~ mute q e).
  { unfold arrives, admits, mute. rewrite He, Ho. cbn [q_list q_ack q_ad offered andb]. rewrite app_nil_r, orb_true_r, orb_false_r. split; [reflexivity|]. split; [reflexivity|]. split; [reflexivity|]. intros [X|[]]; discriminate. }
  destruct Hq as (Hq1 & Hq2 & Hq3 & Hq4). destruct (jstep_cases q e r q' o C1 O1 M1 E1) as (_ & _ & [(-> & _ & [X|X])|(_ & _ & X)]).
  - contradiction.
  - destruct (q_list q) as [|x l] eqn:El; [rewrite firstn_nil; reflexivity|]. exfalso. apply X. split; [rewrite Hq1; discriminate|]. right. split; [exact Hq2|]. rewrite Hq1, Hq3. unfold size. tauto.
  - cbn zeta in X. destruct X as (-> & _ & _). rewrite send_batch, Hq1. reflexivity.
Qed.
Print Assumptions C29_ack_partial.

Theorem C29_ack_refuted : exists (h : list (jev Z)) tr q e r q', sane (h ++ [e]) /\ jrun (joold_alloc 0) h = (tr, q) /\ acks e /\
  q_list q = [10] /\ acked true tr = true /\ jstep q (v_op e) (v_cfg e) (v_now e) (v_room e) = (r, q', Quiet).
Proof.
  exists [at_ 1 (JAdd 10 true)]. eexists _, _. exists (at_ 2 JAck). eexists _, _.
  split; [split; [reflexivity|]; repeat (constructor; [cbn; lia|]); constructor|]. split; [vm_compute; reflexivity|]. split; [split; reflexivity|]. split; [reflexivity|]. split; [reflexivity|]. vm_compute. reflexivity.
Qed.
Print Assumptions C29_ack_refuted.

(** An advertisement gets through: each ack has one more packet sent, until nothing waits. *)
Lemma drain : forall (A : Type) (h : list (jev A)) q tr q' m, counted q -> 1 <= m < 2^32 -> q_ad q = true \/ q_list q = [] ->
  Forall (fun e => acks e /\ j_max (v_cfg e) = m) h -> jrun q h = (tr, q') -> size (q_list q) <= m * Z.of_nat (length h) ->
  flat_map left tr = q_list q /\ q_list q' = [].
Proof.
  induction h as [|e h IH]; intros q tr q' m C Hm Ha Hf E Hl; cbn [jrun] in E.
  { injection E as <- <-. cbn [length] in Hl. unfold size in Hl. destruct (q_list q); [auto|cbn [length] in Hl; lia]. }
  destruct (jstep q (v_op e) (v_cfg e) (v_now e) (v_room e)) as [[r q1] o] eqn:E1. destruct (jrun q1 h) as [tr1 q2] eqn:E2. injection E as <- <-.
  inversion Hf as [|? ? [[He1 He2] He3] Hf']; subst.
  assert (Hq : q_list (arrives q e) = q_list q /\ q_ack (arrives q e) = true /\ q_ad (arrives q e) = q_ad q /\ ~ mute q e).
  { unfold arrives, admits, mute. rewrite He1, He2. cbn [q_list q_ack q_ad offered andb]. rewrite app_nil_r, orb_true_r, orb_false_r. split; [reflexivity|]. split; [reflexivity|]. split; [reflexivity|]. intros [X|[]]; discriminate. }
  destruct Hq as (Hq1 & Hq2 & Hq3 & Hq4).
  assert (Ho : size (q_list q) + size (offered (v_op e)) < 2^32) by (rewrite He1; destruct C as [_ C]; change (size (offered JAck)) with 0; lia).
  destruct (jstep_cases q e r q1 o C Ho Hm E1) as (C1 & L1 & X). cbn [flat_map left].
  destruct X as [(-> & -> & X)|(_ & _ & X)].
  - assert (Z0 : q_list q = []).
    { destruct (q_list q) as [|x l] eqn:El; [reflexivity|]. exfalso. destruct X as [X|X]; [contradiction|]. apply X. split; [rewrite Hq1; discriminate|]. right. split; [exact Hq2|]. left. rewrite Hq3. destruct Ha; [assumption|discriminate]. }
    destruct (IH (arrives q e) tr1 q2 _ C1 Hm (or_intror (eq_trans Hq1 Z0)) Hf' E2) as [I1 I2]; [rewrite Hq1, Z0; change (size []) with 0; nia|]. cbn [batch app]. rewrite I1, Hq1. auto.
  - cbn zeta in X. destruct X as (-> & N & ->). rewrite send_batch, Hq1 in *.
    set (n := Z.to_nat (j_max (v_cfg e))) in *.
    match type of E2 with jrun ?x _ = _ => assert (Ha1 : q_ad x = true \/ q_list x = []) end.
    { cbn [q_ad q_list]. rewrite ?Hq1, Hq3. destruct (skipn n (q_list q)) eqn:Es; [right; reflexivity|left]. cbn [ended]. destruct Ha as [Ha|Ha]; [exact Ha|]. rewrite Ha, skipn_nil in Es. discriminate. }
    destruct (IH _ tr1 q2 _ C1 Hm Ha1 Hf' E2) as [I1 I2].
    { cbn [q_list]. rewrite ?Hq1. cbn [length] in Hl. unfold size in *. rewrite skipn_length. subst n. nia. }
    cbn [q_list] in I1. rewrite ?Hq1 in I1. rewrite I1, firstn_skipn. auto.
Qed.

Theorem C29_advertised : forall (A : Type) now (h acks_ : list (jev A)) tr q tr' q' m, sane h -> jrun (joold_alloc now) h = (tr, q) -> q_ad q = true ->
  1 <= m < 2^32 -> Forall (fun e => acks e /\ j_max (v_cfg e) = m) acks_ -> Z.of_nat (length (q_list q)) <= m * Z.of_nat (length acks_) ->
  jrun q acks_ = (tr', q') -> flat_map left tr' = q_list q /\ q_list q' = [].
Proof.
  intros A now h ks tr q tr' q' m Hs E Ha Hm Hf Hl E'. destruct (start now h Hs) as [C F]. destruct (jrun_ok h _ tr q C F E) as (C1 & _).
  exact (drain A ks q tr' q' m C1 Hm (or_introl Ha) Hf E' Hl).
Qed.
Print Assumptions C29_advertised.
Example C29_advertised_case : exists q, q = snd (jrun (joold_alloc 0) [at_ 1 (JAdvertise [1; 2; 3; 4; 5] true); at_ 2 (JAdd 9 true)]) /\ q_ad q = true /\
  map left (fst (jrun q [at_ 3 JAck; at_ 4 JAck])) = [[3; 4]; [5; 9]].
Proof. eexists. split; [reflexivity|]. vm_compute. auto. Qed.

(** Sessions taken from the queue get lost if "max sessions per packet" asks for
    more than fit: the message always has the same size (36 sessions or so). *)
Theorem C29_lost_refuted : exists (h : list (jev Z)) tr q, sane h /\ Forall (fun e => v_room e = Some 36%nat) h /\ jrun (joold_alloc 0) h = (tr, q) /\
  q_list q = [] /\ In 1 (flat_map entered tr) /\ forall q0 e o l, In (q0, e, o) tr -> o <> Sent l.
Proof.
  exists [JEv (JAdvertise (map Z.of_nat (seq 1 37)) true) (JCfg true 2000 512 37 1) 5 (Some 36%nat)]. eexists _, _.
  split; [split; [reflexivity|]; constructor; [cbn; lia|constructor]|]. split; [constructor; [reflexivity|constructor]|]. split; [vm_compute; reflexivity|]. split; [reflexivity|].
  split; [vm_compute; left; reflexivity|]. intros q0 e o l [X|[]]. injection X as _ _ <-. discriminate.
Qed.
Print Assumptions C29_lost_refuted.

(** "max sessions per packet" may be configured to be 0, and then nothing is ever sent. *)
Theorem C29_zero_refuted : exists (h : list (jev Z)) tr q e r q', Forall (fun e => j_enabled (v_cfg e) = true /\ j_max (v_cfg e) = 0) (h ++ [e]) /\
  jrun (joold_alloc 0) h = (tr, q) /\ acks e /\ overdue (v_cfg e) (last_sent 0 tr) (v_now e) /\ q_list q = [10; 11] /\
  jstep q (v_op e) (v_cfg e) (v_now e) (v_room e) = (r, q', Quiet) /\ q_list q' = [10; 11].
Proof.
  set (c := JCfg true 2000 512 0 1). exists [JEv (JAdd 10 true) c 5 (Some 36%nat); JEv (JAdd 11 true) c 6 (Some 36%nat)]. eexists _, _. exists (JEv JAck c 9000 (Some 36%nat)). eexists _, _.
  split; [repeat (constructor; [split; reflexivity|]); constructor|]. split; [vm_compute; reflexivity|]. split; [split; reflexivity|]. split; [vm_compute; reflexivity|]. split; [reflexivity|]. split; [vm_compute; reflexivity|]. reflexivity.
Qed.
Print Assumptions C29_zero_refuted.
