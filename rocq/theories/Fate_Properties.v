(** C85: what becomes of a packet. *)
Require Import Verif.Base Verif.Fate_Model Verif.Fate_Spec Verif.Fate_Proofs Verif.Fate_Stages.

(** ** Memory and references

    Whatever the steps decide, whichever allocation fails and whichever packet the
    kernel does not send: of everything taken (the xlation, the reference to the
    instance, the outgoing packets and their routes, of both passes of a hairpin)
    nothing is released twice or used after it was released, and nothing is held in
    the end.  The packet of the kernel is ours exactly if we answer that we took it:
    then it was freed or kept exactly once, and otherwise it was not touched. *)
Theorem C85_owned : forall h c f w, healthy w -> turns_from_6 f w ->
  forall t, life t (thing_eqb t Incoming) (fst (hook_packet h c f w)) =
    Some (thing_eqb t Incoming && match snd (hook_packet h c f w) with Taken => false | _ => true end).
Proof. exact hook_owned. Qed.
Print Assumptions C85_owned.

(** ** The first refusal decides

    The decisions are taken in the order of [stages].  The first one that is not to
    go on decides alone: its counter is counted and no other one of a fate, nothing is
    sent, the sender is told if the decision says so and the error exists in the protocol
    (RFCs 792, 1812, 4443) and can be sent, and the kernel gets the packet back if
    it is not ours to translate. *)
Theorem C85_refused : forall h c f w s, w_mem w = true -> w_found w = true -> first_refusal (stages c f w) = Some s ->
  let out := hook_packet h c f w in
  counted (fst out) = (match f with P6 => 1 | P4 => 2 end) :: counter s :: error_counters f w s /\
  sent (fst out) = [] /\
  errors (fst out) = error_events f w s /\
  kept (fst out) = match s with Stored _ => [Incoming] | _ => [] end /\
  snd out = answer_to h s.
Proof. exact hook_refused. Qed.
Print Assumptions C85_refused.

(** Nothing refuses and the packet does not U-turn: all parts of the translation are
    handed to the kernel in order, each once, with its own route; if it cannot send
    one, the ones after it are not sent and the packet is dropped.  No error is sent. *)
Theorem C85_sent : forall h c f w, w_mem w = true -> w_found w = true ->
  first_refusal (stages c f w) = None -> q_hairpin (w_pass w) = false ->
  let out := hook_packet h c f w in
  let lacking := first_lacking (w_pass w) 0 (length (parts 0 f (w_pass w))) in
  counted (fst out) = [match f with P6 => 1 | P4 => 2 end; match lacking with None => 3 | Some _ => 63 end] /\
  sent (fst out) = match lacking with None => parts 0 f (w_pass w) | Some k => firstn (S k) (parts 0 f (w_pass w)) end /\
  errors (fst out) = [] /\
  kept (fst out) = [] /\
  snd out = match lacking with None => Taken | Some _ => Dropped end.
Proof. exact hook_sent. Qed.
Print Assumptions C85_sent.

(** Nothing refuses and the packet U-turns: nothing of the first pass is sent, and the
    second pass decides, except that it tells the sender nothing. *)
Theorem C85_hairpin : forall h c w q, w_mem w = true -> w_found w = true ->
  first_refusal (stages c P6 w) = None -> q_hairpin (w_pass w) = true -> w_second w = Some q ->
  let out := hook_packet h c P6 w in
  errors (fst out) = [] /\
  match first_refusal (second_stages (c_type c) q) with
  | Some s =>
    counted (fst out) = [1; counter s] /\ sent (fst out) = [] /\
    kept (fst out) = match s with Stored _ => [Incoming] | _ => [] end /\ snd out = answer_to h s
  | None =>
    let lacking := first_lacking q 0 (length (parts 1 P4 q)) in
    counted (fst out) = [1; match lacking with None => 3 | Some _ => 63 end] /\
    sent (fst out) = match lacking with None => parts 1 P4 q | Some k => firstn (S k) (parts 1 P4 q) end /\
    kept (fst out) = [] /\
    snd out = match lacking with None => Taken | Some _ => Dropped end
  end.
Proof.
  intros h c w q Hm Hf Hs Hh H2. pose proof (hook_hairpin h c w Hm Hf Hs Hh) as H. cbv zeta in H |- *. rewrite H2 in H. exact H.
Qed.
Print Assumptions C85_hairpin.

(** ** One fate

    Of the counters that tell fates, exactly one is counted, once, for every packet
    that an instance gets, unless there is no memory for the second pass of a
    hairpin; and it is the one of success exactly if we took the packet without
    keeping it. *)
Lemma ok_refusal l s : Forall (fun s => match s with Plain s => step_ok s | Stored j => tells_fate j = true /\ j <> 3 end) l ->
  first_refusal l = Some s -> tells_fate (counter s) = true /\ counter s <> 3.
Proof.
  induction 1 as [|a l Ha _ IH]; [discriminate|]. cbn. destruct (goes a) eqn:E; [exact IH|]. intros [= <-].
  destruct a as [[]|]; try discriminate; exact Ha.
Qed.

Lemma ok_route q : step_ok (route_stage q).
Proof. unfold route_stage. destruct (q_found q); [exact Logic.I | split; [reflexivity | discriminate]]. Qed.
Lemma ok_memory f q : step_ok (memory_stage f q).
Proof.
  unfold memory_stage. destruct (q_short q) as [[k t]|]; [|exact Logic.I].
  destruct f, (if q_error q then O else q_more q); try (split; [reflexivity | discriminate]). destruct (Nat.leb k (S n)); [split; [reflexivity | discriminate] | exact Logic.I].
Qed.
Lemma ok_fix q : step_ok (fix_stage q).
Proof. unfold fix_stage. destruct (q_error q); [|exact Logic.I]. destruct (q_fix q); try exact Logic.I; split; (reflexivity || discriminate). Qed.

Definition fok (s : fstep) : Prop := match s with Plain s => step_ok s | Stored j => tells_fate j = true /\ j <> 3 end.

Lemma ok_routing f b q : pass_ok q -> Forall fok (routing_stages f b q).
Proof.
  intros (_ & _ & _ & H & H' & _). unfold routing_stages. cbn [map]. constructor; [exact H|].
  destruct (match f with P6 => b | P4 => false end); cbn; repeat constructor; try exact H'; apply ok_route.
Qed.

Lemma ok_translation ty f b q : pass_ok q -> Forall fok (translation_stages ty f b q).
Proof.
  intro Hq. unfold translation_stages. apply Forall_app. split.
  - destruct ty, f; try apply ok_routing, Hq. destruct (q_early q); [constructor | apply ok_routing, Hq].
  - destruct Hq as (_ & _ & _ & _ & _ & Hs & H3 & H4). destruct (q_l4 q); cbn; repeat (constructor; try assumption); try apply ok_memory; apply ok_fix.
Qed.

Lemma ok_stateful f q : pass_ok q -> Forall fok (stateful_stages f q).
Proof.
  intro Hq. unfold stateful_stages. apply Forall_app. split.
  - destruct f; [constructor|]. destruct (q_early q); [apply ok_routing, Hq | constructor].
  - destruct Hq as (_ & Hf & Ht & _). constructor; [exact Hf|]. constructor; [exact Ht | constructor].
Qed.

Lemma ok_stages c f w : world_ok w -> Forall fok (stages c f w).
Proof.
  intros (Hi & Hq & _). unfold stages.
  constructor; [destruct (c_enabled c); [exact Logic.I | split; [reflexivity | discriminate]]|].
  constructor; [destruct (c_type c), (c_pool6 c); (exact Logic.I || (split; [reflexivity | discriminate]))|].
  constructor; [exact Hi|]. apply Forall_app. split; [|apply ok_translation, Hq].
  destruct (c_type c); [constructor|]. constructor; [apply Hq | apply ok_stateful, Hq].
Qed.

Lemma ok_second ty q : pass_ok q -> Forall fok (second_stages ty q).
Proof. intro Hq. apply Forall_app. split; [destruct ty; [constructor | apply ok_stateful, Hq] | apply ok_translation, Hq]. Qed.

Lemma error_counters_tell f w s : List.filter tells_fate (error_counters f w s) = [].
Proof. unfold error_counters. destruct (told s); [|reflexivity]. destruct f, (error_events _ w s); reflexivity. Qed.

Lemma answer_taken h s : answer_to h s = Taken -> match s with Stored _ => True | _ => False end.
Proof. destruct s as [[]|], h; (discriminate || exact (fun _ => Logic.I)). Qed.

Theorem C85_one_fate : forall h c f w, w_mem w = true -> w_found w = true -> world_ok w -> turns_from_6 f w ->
  (q_hairpin (w_pass w) = true -> w_second w <> None) ->
  let out := hook_packet h c f w in
  exists j, List.filter tells_fate (counted (fst out)) = [j] /\
    (j = 3 <-> snd out = Taken /\ kept (fst out) = []).
Proof.
  intros h c f w Hm Hf Ho Ht H2. cbv zeta.
  assert (R : forall s, tells_fate (counter s) = true /\ counter s <> 3 ->
    List.filter tells_fate [match f with P6 => 1 | P4 => 2 end; counter s] = [counter s] /\
    (counter s = 3 <-> answer_to h s = Taken /\ match s with Stored _ => [Incoming] | _ => [] end = [])).
  { intros s (Hs & Hn). split; [destruct f; cbn [List.filter]; rewrite Hs; reflexivity|].
    split; [intro; contradiction|]. intros (Ha & Hk). apply answer_taken in Ha. destruct s; [contradiction | discriminate]. }
  destruct (first_refusal (stages c f w)) as [s|] eqn:E.
  - destruct (C85_refused h c f w s Hm Hf E) as (-> & _ & _ & -> & ->). exists (counter s).
    destruct (R s (ok_refusal _ _ (ok_stages c f w Ho) E)) as (R1 & R2). split; [|exact R2].
    change (match f with P6 => 1 | P4 => 2 end :: counter s :: error_counters f w s) with ([match f with P6 => 1 | P4 => 2 end; counter s] ++ error_counters f w s).
    rewrite filter_app, R1, error_counters_tell. reflexivity.
  - destruct (q_hairpin (w_pass w)) eqn:Hh.
    + specialize (Ht Hh). subst f. specialize (H2 eq_refl). destruct (w_second w) as [q|] eqn:Eq; [|congruence].
      pose proof (C85_hairpin h c w q Hm Hf E Hh Eq) as (_ & H). cbv zeta in H.
      destruct Ho as (_ & _ & Ho). rewrite Eq in Ho.
      destruct (first_refusal (second_stages (c_type c) q)) as [s|] eqn:E2.
      * destruct H as (-> & _ & -> & ->). exists (counter s). exact (R s (ok_refusal _ _ (ok_second _ _ Ho) E2)).
      * destruct H as (-> & _ & -> & ->). destruct (first_lacking q 0 (length (parts 1 P4 q))).
        -- exists 63. split; [reflexivity|]. split; [discriminate|]. intros (H & _). discriminate.
        -- exists 3. split; [reflexivity|]. now split.
    + destruct (C85_sent h c f w Hm Hf E Hh) as (-> & _ & _ & -> & ->). destruct (first_lacking (w_pass w) 0 (length (parts 0 f (w_pass w)))).
      * exists 63. split; [destruct f; reflexivity|]. split; [discriminate|]. intros (H & _). discriminate.
      * exists 3. split; [destruct f; reflexivity|]. now split.
Qed.
Print Assumptions C85_one_fate.

(** ** Examples *)

Definition plain_pass : pass := Pass Go false (Plain Go) Go Go true Go Go false 0 None Go true NoFix Go false false (fun _ => false).
Definition with_second (q : option pass) : world :=
  World true true Go (Pass Go false (Plain Go) Go Go true Go Go false 0 None Go true NoFix Go false true (fun _ => false)) q true true.

(** An IPv4 packet that becomes three IPv6 packets of which the kernel fails to send
    the second *)
Definition three : world :=
  World true true Go (Pass Go false (Plain Go) Go Go true Go Go false 2 None Go true NoFix Go false false (fun i => Nat.eqb i 1)) None true true.
Example three_meets : healthy three /\ turns_from_6 P4 three /\ world_ok three /\
  first_refusal (stages (Conf NAT64 true true) P4 three) = None /\ q_hairpin (w_pass three) = false /\
  sent (fst (hook_packet Netfilter (Conf NAT64 true true) P4 three)) = [(Copy 0 0, Route 0 0); (Copy 0 1, Route 0 1)] /\
  counted (fst (hook_packet Netfilter (Conf NAT64 true true) P4 three)) = [2; 63] /\
  snd (hook_packet Netfilter (Conf NAT64 true true) P4 three) = Dropped.
Proof.
  split; [split; [split; [discriminate | reflexivity] | exact Logic.I]|]. split; [discriminate|].
  split; [repeat split|]. vm_compute. repeat split.
Qed.

(** An IPv6 packet whose hop limit is exhausted *)
Definition tired : world :=
  World true true Go (Pass Go true (Plain Go) Go Go true Go Go false 0 None (RefuseIcmp 45 Ttl 0) true NoFix Go false false (fun _ => false)) None true true.
Example tired_meets : healthy tired /\ first_refusal (stages (Conf NAT64 true true) P6 tired) = Some (Plain (RefuseIcmp 45 Ttl 0)) /\
  errors (fst (hook_packet Iptables (Conf NAT64 true true) P6 tired)) = [Error P6 Incoming 3 0 0] /\
  counted (fst (hook_packet Iptables (Conf NAT64 true true) P6 tired)) = [1; 45; 64] /\
  snd (hook_packet Iptables (Conf NAT64 true true) P6 tired) = Dropped.
Proof. split; [split; [split; [discriminate | reflexivity] | exact Logic.I]|]. vm_compute. repeat split. Qed.

(** An ICMP error with extensions *)
Definition extended : world :=
  World true true Go (Pass Go false (Plain Go) Go Go true Go Go true 0 None Go true Fixed Go false false (fun _ => false)) None true true.
Example extended_meets : healthy extended /\ world_ok extended /\ turns_from_6 P4 extended /\
  first_refusal (stages (Conf SIIT true false) P4 extended) = None /\
  hook_packet Netfilter (Conf SIIT true false) P4 extended =
  ([Take (Xlation 0); Take Instance; Count 2; Take (Route 0 0); Take (Copy 0 0);
    Take (Rebuilt 0); Take (RebuiltRoute 0); Free (Route 0 0); Free (Copy 0 0);
    Output (Rebuilt 0) (RebuiltRoute 0); Free Incoming; Count 3; Free Instance; Free (Xlation 0)], Taken).
Proof.
  split; [split; [split; (discriminate || reflexivity) | exact Logic.I]|]. split; [repeat split|]. split; [discriminate|].
  vm_compute. repeat split.
Qed.

(** A hairpin *)
Example hairpin_meets : healthy (with_second (Some plain_pass)) /\ world_ok (with_second (Some plain_pass)) /\
  first_refusal (stages (Conf NAT64 true true) P6 (with_second (Some plain_pass))) = None /\
  q_hairpin (w_pass (with_second (Some plain_pass))) = true /\
  hook_packet Netfilter (Conf NAT64 true true) P6 (with_second (Some plain_pass)) =
  ([Take (Xlation 0); Take Instance; Count 1; Take (Route 0 0); Take (Copy 0 0); Free (Route 0 0);
    Take (Xlation 1); Take (Route 1 0); Take (Copy 1 0); Output (Copy 1 0) (Route 1 0); Free (Xlation 1);
    Free (Copy 0 0); Free Incoming; Count 3; Free Instance; Free (Xlation 0)], Taken).
Proof. split; [split; split; (discriminate || reflexivity)|]. split; [repeat split|]. vm_compute. repeat split. Qed.

(** ** What is false *)

(** A refusal with an ICMP error tells the sender, if it can be told: not in the
    second pass of a hairpin, whose result is never looked at
    (handling_hairpinning_nat64.c:50-71: new->result is not copied to old->result). *)
Theorem C85_hairpin_told_refuted : exists c w q s e i, world_ok w /\ healthy w /\ can_tell P6 w = true /\
  first_refusal (stages c P6 w) = None /\ q_hairpin (w_pass w) = true /\ w_second w = Some q /\
  first_refusal (second_stages (c_type c) q) = Some s /\ told s = Some (e, i) /\ rfc_error P6 e <> None /\
  errors (fst (hook_packet Netfilter c P6 w)) = [].
Proof.
  set (q := Pass Go false (Plain Go) Go Go true Go Go false 0 None (RefuseIcmp 56 Ttl 0) true NoFix Go false false (fun _ => false)).
  exists (Conf NAT64 true true), (with_second (Some q)), q, (Plain (RefuseIcmp 56 Ttl 0)), Ttl, 0.
  split; [repeat split; discriminate|]. split; [split; split; (discriminate || reflexivity)|]. vm_compute. repeat split. discriminate.
Qed.
Print Assumptions C85_hairpin_told_refuted.

(** Every packet an instance gets has a fate that is counted: not if there is no
    memory for the second pass of a hairpin (handling_hairpinning_nat64.c:52-54,
    handling_hairpinning_siit.c:19-21: VERDICT_DROP without a counter). *)
Theorem C85_hairpin_counted_refuted : exists c w, world_ok w /\ healthy w /\ w_mem w = true /\ w_found w = true /\
  snd (hook_packet Netfilter c P6 w) = Dropped /\ List.filter tells_fate (counted (fst (hook_packet Netfilter c P6 w))) = [].
Proof.
  exists (Conf NAT64 true true), (with_second None). split; [repeat split|]. split; [split; [split; (discriminate || reflexivity) | exact Logic.I]|].
  vm_compute. repeat split.
Qed.
Print Assumptions C85_hairpin_counted_refuted.

(** Packets of namespaces without an instance are left alone: not if memory is short,
    because the hooks allocate before they look for the instance. *)
Theorem C85_bystanders_refuted : exists c f w, w_found w = false /\ hook_packet Netfilter c f w = ([], Dropped).
Proof. exists (Conf NAT64 true true), P6, (World false false Go plain_pass None true true). split; reflexivity. Qed.
Print Assumptions C85_bystanders_refuted.

(** A packet the kernel gets back was not translatable when it arrived: not if it
    U-turns and the way back fails; the original IPv6 packet, towards pool6, is handed
    to the kernel though it has been translated, and sessions exist for it. *)
Theorem C85_handed_back_refuted : exists c w, world_ok w /\ healthy w /\
  first_refusal (stages c P6 w) = None /\ snd (hook_packet Netfilter c P6 w) = Accept.
Proof.
  set (q := Pass Go false (Plain (Untr 29)) Go Go true Go Go false 0 None Go true NoFix Go false false (fun _ => false)).
  exists (Conf NAT64 true true), (with_second (Some q)). split; [repeat split; discriminate|].
  split; [split; split; (discriminate || reflexivity)|]. vm_compute. repeat split.
Qed.
Print Assumptions C85_handed_back_refuted.

(** The first hypothesis of [C85_owned] is needed: if the copy in fix_ie fails, the
    new sk_buff stays allocated (common.c:279-287), and packets with a null page stay
    allocated too (rfc7915/core.c:43-47, on purpose). *)
Theorem C85_owned_torn_refuted : exists c f w t, world_ok w /\ turns_from_6 f w /\ q_null (w_pass w) = false /\
  life t (thing_eqb t Incoming) (fst (hook_packet Netfilter c f w)) = Some true /\ t <> Incoming.
Proof.
  exists (Conf SIIT true true), P4, (World true true Go (Pass Go false (Plain Go) Go Go true Go Go true 0 None Go true FixTorn Go false false (fun _ => false)) None true true), (Rebuilt 0).
  split; [repeat split|]. vm_compute. repeat split; discriminate.
Qed.
Print Assumptions C85_owned_torn_refuted.

Theorem C85_owned_null_refuted : exists c f w t, world_ok w /\ turns_from_6 f w /\ q_fix (w_pass w) <> FixTorn /\
  life t (thing_eqb t Incoming) (fst (hook_packet Netfilter c f w)) = Some true /\ t <> Incoming.
Proof.
  exists (Conf SIIT true true), P4, (World true true Go (Pass Go false (Plain Go) Go Go true Go Go false 0 None (Refuse 58) true NoFix Go true false (fun _ => false)) None true true), (Copy 0 0).
  split; [repeat split; discriminate|]. vm_compute. repeat split; discriminate.
Qed.
Print Assumptions C85_owned_null_refuted.
