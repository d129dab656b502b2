(** Properties of the global settings: C44, C45, C63. *)
Require Import Verif.Base Verif.Addr_Model Verif.Addr_Spec Verif.Deny_Spec Verif.Hdr_Spec Verif.Glob_Model Verif.Glob_Spec Verif.Glob_Proofs.
Require Verif.KeyPaging.

(** ** C45: lists of plateaus are normalised *)

(** The property holds of lists that are not empty, whatever was configured
    before. Missing: the empty list, see C45_refuted. *)
Theorem C45_partial : forall l p, wt_plateaus p -> Forall is_u16 l -> l <> [] ->
  match jnla_get_plateaus l p with
  | (OK, p') => normal l (stored p') /\ (length (stored p') <= 64)%nat /\ (length l <= 64)%nat
  | (Err e, _) => e = EINVAL /\ ((64 < length l)%nat \/ (forall x, In x l -> x = 0))
  end.
Proof.
  intros l p (W1 & W2 & W3) U N. pose proof (plateaus_cases l p W1 W2 U N) as C.
  destruct (Z.ltb_spec 64 (Z.of_nat (length l))); [destruct C as (p' & ->); split; [reflexivity|]; left; lia|].
  destruct (forallb (Z.eqb 0) l) eqn:F.
  - destruct C as (p' & ->). split; [reflexivity|]. right. intros x Hx. rewrite forallb_forall in F. apply F in Hx. lia.
  - destruct C as (p' & -> & C1 & (C2 & _ & C3) & _). split; [exact C1|]. split; [|lia]. unfold stored. rewrite firstn_length. lia.
Qed.
Print Assumptions C45_partial.
(** Lists with a nonzero value, not too long, are accepted. *)
Theorem C45_accepts : forall l p x, wt_plateaus p -> Forall is_u16 l -> (length l <= 64)%nat -> In x l -> x <> 0 ->
  exists p', jnla_get_plateaus l p = (OK, p').
Proof.
  intros l p x W U L Hx Nx. pose proof (C45_partial l p W U ltac:(intros ->; destruct Hx)) as C.
  destruct (jnla_get_plateaus l p) as [[|e] p']; [eauto|]. destruct C as (_ & [C|C]); [lia|]. destruct (Nx (C x Hx)).
Qed.
Print Assumptions C45_accepts.
Definition plateaus0 : mtu_plateaus := Plateaus ([1500; 1280; 576] ++ repeat 0 61) 3.
Example C45_nontrivial : wt_plateaus plateaus0 /\ jnla_get_plateaus [68; 0; 9000; 1500; 68; 9000; 0] plateaus0 =
  (OK, Plateaus ([9000; 1500; 68; 68; 68; 0; 0] ++ repeat 0 57) 3) /\ fst (jnla_get_plateaus [0; 0] plateaus0) = Err EINVAL /\
  fst (jnla_get_plateaus (repeat 1500 65) plateaus0) = Err EINVAL.
Proof.
  split; [|split; [vm_compute; reflexivity|split; vm_compute; reflexivity]]. unfold wt_plateaus, plateaus0. cbn [values count]. split; [reflexivity|]. split; [|lia].
  apply Forall_app. split; [repeat (constructor; [unfold is_u16; lia|]); constructor|]. apply Forall_forall. intros x Hx. apply repeat_spec in Hx. subst x. unfold is_u16. lia.
Qed.

(** Finding: a message with an empty list ("mtu-plateaus": [] in the JSON file) has
    no nonzero value, but is accepted: the loops run over nothing, values[0] is what
    was there before, and the list becomes that one value. *)
Theorem C45_refuted : exists p p', wt_plateaus p /\ jnla_get_plateaus [] p = (OK, p') /\ ~ normal [] (stored p') /\ stored p' = [1500] /\ stored p = [1500; 1280; 576].
Proof.
  exists plateaus0. eexists. split; [apply C45_nontrivial|]. split; [vm_compute; reflexivity|]. split; [|split; reflexivity].
  intros [_ N]. destruct (N 1500) as [N1 _]. destruct N1 as [[] _]. vm_compute. left. reflexivity.
Qed.
Print Assumptions C45_refuted.

(** ** C44: the running settings are in their documented ranges *)

(** From the creation of the instance, through any requests to update. *)
Theorem C44 : forall xt pool g0 g requests,
  xt = XT_SIIT \/ xt = XT_NAT64 -> wt_globals g0 -> match pool with Some q => wt_prefix6 q | None => True end ->
  globals_init g0 xt pool = (OK, g) -> Forall (fun r : request => wt_msg (snd (fst r))) requests ->
  documented xt (serve_all xt g requests).
Proof.
  intros xt pool g0 g rs Hx W Wp E H. destruct (init_ok xt pool g0 g Hx W Wp E) as [G _]. clear E.
  enough (gok xt (serve_all xt g rs)) by apply H0. revert g G. induction H as [|((force, msg), outcome) rs H1 H IH]; intros g G; [exact G|]. cbn [serve_all]. apply IH.
  cbn [fst snd] in H1. pose proof (update_spec xt force msg g Hx G H1) as U. unfold serve. destruct (global_update g xt force msg) as [[|e] g']; cbn [snd]; [|exact G].
  destruct (outcome g'); cbn [snd]; [apply U|exact G].
Qed.
Print Assumptions C44.

(** An update that is accepted: has only settings of the type, with acceptable
    values; does what it asks, and nothing else. *)
Theorem C44_accepted : forall xt force msg g g', xt = XT_SIIT \/ xt = XT_NAT64 -> documented xt g -> wt_globals g -> wt_msg msg ->
  global_update g xt force msg = (OK, g') ->
  (forall id v, In (id, v) msg -> right_kind xt id v) /\
  (forall id v, asks msg id v -> v <> VPlateaus [] -> acceptable force id v /\ holds id v g') /\
  (forall id, (forall v, ~ In (id, v) msg) -> unchanged id g g').
Proof.
  intros xt force msg g g' Hx D W Wm E. pose proof (update_spec xt force msg g Hx (conj D W) Wm) as U. rewrite E in U. destruct U as (_ & U1 & U2 & U3).
  split; [exact U1|]. split; [|exact U3]. intros id v A N. destruct (U2 id v A) as [[B|[B _]] C]; [auto|contradiction].
Qed.
Print Assumptions C44_accepted.
(** An update that is rejected has something wrong. *)
Theorem C44_rejected : forall xt force msg g e g', xt = XT_SIIT \/ xt = XT_NAT64 -> documented xt g -> wt_globals g -> wt_msg msg ->
  global_update g xt force msg = (Err e, g') ->
  e = EINVAL /\ exists id v, In (id, v) msg /\ (~ right_kind xt id v \/ ~ acceptable force id v).
Proof.
  intros xt force msg g e g' Hx D W Wm E. pose proof (update_spec xt force msg g Hx (conj D W) Wm) as U. rewrite E in U. destruct U as (U1 & [(id & v & A & B)|(id & v & A & B & _)]); (split; [exact U1|]); exists id, v.
  - auto.
  - split; [apply asks_in; exact A|auto].
Qed.
Print Assumptions C44_rejected.

Definition memory : globals := Globals (fun _ => 7) (C6 true (P6 0 0)) (Plateaus (repeat 9 64) 5) (C6 true (P6 0 0)) (C4 true (P4 0 0)).
Definition wkp : prefix6 := P6 (0x64ff9b * 2 ^ 96) 96.
Definition requests0 : list request :=
  [(false, [(JNLAG_TTL_UDP, VU32 119999)], fun _ => OK); (false, [(JNLAG_TTL_UDP, VU32 120000); (JNLAG_ENABLED, VU8 7); (JNLAG_TTL_UDP, VU32 130000)], fun _ => OK);
   (false, [(JNLAG_POOL6, VPrefix6 (Some 95) (Some 0))], fun _ => OK); (false, [(JNLAG_F_ARGS, VU8 16)], fun _ => OK); (false, [(JNLAG_PLATEAUS, VPlateaus [100; 0; 300])], fun _ => OK);
   (false, [(JNLAG_F_ARGS, VU8 3)], fun _ => Err EINVAL)].
Lemma memory_wt : wt_globals memory.
Proof.
  unfold wt_globals, memory, wt_plateaus, wt_prefix6, wt_prefix4, is_u128, is_u32, is_u8. cbn [num pool6 plateaus p6791v6 p6791v4 pre6 pre4 values count p6_addr p6_len p4_addr p4_len].
  split; [split; [apply repeat_length|split; [|lia]]|lia]. apply Forall_forall. intros x Hx. apply repeat_spec in Hx. subst x. unfold is_u16. lia.
Qed.
Example C44_nontrivial : exists g, globals_init memory XT_NAT64 (Some wkp) = (OK, g) /\ wt_globals memory /\ wt_prefix6 wkp /\
  Forall (fun r : request => wt_msg (snd (fst r))) requests0 /\
  let g' := serve_all XT_NAT64 g requests0 in num g' JNLAG_TTL_UDP = 130000 /\ num g' JNLAG_ENABLED = 1 /\ num g' JNLAG_F_ARGS = 11 /\ stored (plateaus g') = [300; 100].
Proof.
  eexists. split; [vm_compute; reflexivity|]. split; [exact memory_wt|]. split; [unfold wt_prefix6, wkp, is_u128, is_u8; cbn [p6_addr p6_len]; lia|].
  split; [|vm_compute; auto]. unfold requests0. repeat (constructor; [repeat (constructor; [cbn; unfold is_u8, is_u16, is_u32, is_u128; repeat (constructor; [lia|]); try (constructor; fail); try lia; repeat constructor; try lia|]); constructor|]). constructor.
Qed.

(** ** C63: listing the settings *)

(** However many fit in each reply, the client gets each of the settings of the
    type of the instance, once, in order. *)
Theorem C63 : forall xt caps, xt = XT_SIIT \/ xt = XT_NAT64 -> Forall (fun c => (1 <= c)%nat) caps -> (32 < length caps)%nat ->
  exists out, KeyPaging.request_all (fun i : Z => i) (map (fun c off => globals_foreach xt metadata (match off with None => 0 | Some k => k end) c) caps) None = KeyPaging.Complete out /\
    Sorted.StronglySorted Z.lt out /\ (forall id, In id out <-> setting_of xt id).
Proof.
  intros xt caps Hx Hc Hl. exists (settings xt). split; [|split].
  - rewrite requests_eq by auto. apply (KeyPaging.request_all_exact _ Z.lt Z.ltb Z.ltb_lt Z.lt_trans Z.lt_irrefl); [apply settings_sorted; exact Hx|exact Hc|].
    destruct Hx as [->| ->]; [rewrite settings_siit|rewrite settings_nat64]; cbn [length]; lia.
  - apply settings_sorted. exact Hx.
  - intros id. unfold setting_of. destruct Hx as [->| ->]; [rewrite settings_siit|rewrite settings_nat64]; unfold XT_SIIT, XT_NAT64; cbn [In]; lia.
Qed.
Print Assumptions C63.
Example C63_nontrivial : KeyPaging.request_all (fun i : Z => i) (map (fun c off => globals_foreach XT_SIIT metadata (match off with None => 0 | Some k => k end) c) [3; 1; 5; 9; 9]%nat) None =
  KeyPaging.Complete [1; 2; 3; 4; 5; 6; 7; 8; 9; 10; 11; 12; 13].
Proof. vm_compute. reflexivity. Qed.
