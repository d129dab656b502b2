(** C42, C43, C44, C64, C65: instances and atomic configuration. *)
Require Import Verif.Base Verif.Addr_Model Verif.Glob_Model Verif.Glob_Spec Verif.Glob_Proofs Verif.Inst_Model Verif.Inst_Spec Verif.Paging Verif.Inst_Proofs Verif.Glob_Properties.
Require Import Permutation.
Local Ltac Zify.zify_post_hook ::= Z.div_mod_to_equations.

Section Inst.
Context {D E : Type} (W : databases D E) (H : hashed W).
Let R (l : list op) : good W (run W init l) := good_run W H l init (good_init W).

(** ** C42: instances *)

(** After any history, no two instances of a namespace and type have the same
    name. *)
Theorem C42_names : forall l, NoDup (map key (instances (run W init l))).
Proof. intros l. apply (R l). Qed.

(** A request finds the instance with its namespace, type and name, if there is one of an
    acceptable framework. *)
Theorem C42_find : forall l ns flags n, let s := run W init l in
  match xlator_find W s ns flags n with
  | (OK, Some i) => In (i_x i) (instances s) /\ key (i_x i) = (ns, flags mod 4, n) /\ Z.testbit flags (framework_of (i_x i) + 1) = true
  | (OK, None) => False
  | (Err err, _) => valid_name n -> (flags mod 4 = 1 \/ flags mod 4 = 2) -> err = ESRCH /\
      forall x, In x (instances s) -> key x = (ns, flags mod 4, n) -> Z.testbit flags (framework_of x + 1) = false
  end.
Proof.
  intros l ns flags n s. pose proof (xlator_find_spec W H s ns flags n (v_tb _ _ _ _ (proj1 (R l)))) as P. destruct (xlator_find W s ns flags n) as [[|err] [i|]]; auto.
  destruct P as (P1 & P2 & P3). split; [apply in_map; exact P1|auto].
Qed.

(** Adding an instance: one with the requested flags and name, the default settings, new
    databases, and nothing else; or nothing. *)
Theorem C42_add : forall l e xt xf n p, let s := run W init l in
  match step W s (Add e xt xf n p) with
  | (OK, s') => exists x, Permutation (instances s') (x :: instances s) /\ x_ns x = e_ns e /\ x_name x = n /\ x_flags x = Z.lor xf xt /\ valid_name n /\ well_formed x /\
      globals_init (e_mem e) (type_of x) p = (OK, x_glob x) /\ ~ In (key x) (map key (instances s)) /\ (forall y, In y (instances s) -> ~ clash x y) /\
      (forall o, In o (databases_of x) -> ~ alive s o) /\ NoDup (databases_of x) /\ initial W (contents s') x /\
      (forall y o, In y (users s) -> In o (databases_of y) -> contents s' o = contents s o) /\ cands s' = cands s /\ held s' = held s
  | (Err _, s') => table s' = table s /\ nf_list s' = nf_list s /\ hooks s' = hooks s /\ cands s' = cands s /\ held s' = held s /\ (forall y o, In y (users s) -> In o (databases_of y) -> contents s' o = contents s o)
  end.
Proof.
  intros l e xt xf n p s. pose proof (R l) as G. fold s in G. pose proof (proj1 G) as I. cbn [step]. apply (if_xt_cases W H (fun r => match r with (OK, s') => _ | (Err _, s') => _ end)); [|auto 8]. intros Hx.
  assert (Ho : forall y o, In y (users s) -> In o (databases_of y) -> In o (refs [] s)) by (intros y o Hy Ho; apply (in_users [] s y); assumption).
  pose proof (add_spec W H [] e (Z.lor xf xt) n p s I) as P. destruct (xlator_add W e (Z.lor xf xt) n p s) as [[|err] s'].
  - destruct P as (I' & Bv & Cv & (i & Pi & P1 & P2 & P3 & P4 & P5 & P6 & P7) & K & Ec & Eh & _).
    assert (F : well_formed (i_x i)). { apply (b_wf _ _ (v_tb _ _ _ _ I')). apply (Permutation_in _ (Permutation_sym Pi)). left. reflexivity. }
    assert (Cs := proj1 (collision_spec W H s _ _ _ (v_tb _ _ _ _ I)) Cv). exists (i_x i).
    split; [apply (instances_perm s s' _ Pi)|]. split; [exact P1|]. split; [exact P2|]. split; [exact P3|]. split; [apply (basic_add_spec W H) in Bv; apply Bv|]. split; [exact F|]. split; [exact P4|]. split; [|split; [|split; [|split; [exact P6|split; [exact P7|split; [|auto]]]]]].
    + intros Hk. apply in_map_iff in Hk as (y & Ey & Hy). injection Ey as E1 E2 E3. destruct (Cs y Hy) as [Hn _]; [congruence|unfold type_of in *; congruence|congruence].
    + intros y Hy (E1 & E2 & E3 & E4). destruct (Cs y Hy) as [_ Hn]; [congruence|unfold type_of in *; congruence|]. apply Hn. split; [|exact E4]. rewrite <- P3. change (is_netfilter (i_x i) = true). rewrite is_netfilter_spec by exact F. apply Z.eqb_eq. exact E3.
    + intros o Hoo Ha. apply (objs_ok_alive _ _ o (r_objs _ _ (v_rf _ _ _ _ I))) in Ha. apply (r_next _ _ (v_rf _ _ _ _ I)) in Ha. specialize (P5 o Hoo). lia.
    + intros y o Hy Hoo. unfold contents. apply K. eapply Ho; eauto.
  - destruct P as (I' & Gr & _). destruct (grown_good W H s s' G I' Gr) as (_ & (E1 & E2 & E3 & E4 & _) & K & Ec). repeat (split; [assumption|]). intros y o Hy Hoo. unfold contents. apply K. eapply Ho; eauto.
Qed.
(** It fails only if it is not valid, something is in its way, or something is lacking. *)
Theorem C42_add_works : forall l e xt xf n p, let s := run W init l in
  xt = 1 \/ xt = 2 -> xf = 4 \/ xf = 8 -> valid_name n -> (xt = 2 -> p <> None) -> (exists g, globals_init (e_mem e) xt p = (OK, g)) -> (forall k, e_alloc e k = true) -> e_hook e = OK ->
  (forall y, In y (instances s) -> x_ns y = e_ns e -> type_of y = xt -> x_name y <> n /\ ~ (xf = 4 /\ framework_of y = 1)) -> fst (step W s (Add e xt xf n p)) = OK.
Proof.
  intros l e xt xf n p s Hx Hf Hn Hp (g & Hg) Ha Hh Hc. pose proof (proj1 (R l)) as I. fold s in I. cbn [step]. unfold if_xt. replace ((xt =? XT_SIIT) || (xt =? XT_NAT64)) with true by (unfold XT_SIIT, XT_NAT64; lia).
  pose proof (add_spec W H [] e (Z.lor xf xt) n p s I) as P. destruct (xlator_add W e (Z.lor xf xt) n p s) as [[|err] s']; [reflexivity|]. exfalso. destruct P as (_ & _ & P).
  assert (Ht : Z.lor xf xt mod 4 = xt) by (destruct Hx as [->| ->], Hf as [->| ->]; reflexivity).
  destruct P as (g' & Hg'); auto.
  - apply (basic_add_spec W H). split; [exact Hn|]. rewrite Ht. split; [exact Hx|]. split; [destruct Hx as [->| ->], Hf as [->| ->]; cbn; auto|exact Hp].
  - apply (collision_spec W H s _ _ _ (v_tb _ _ _ _ I)). intros y Hy Ey1 Ey2. rewrite Ht in Ey2. destruct (Hc y Hy Ey1 Ey2) as [Hc1 Hc2]. split; [exact Hc1|]. intros [Hb Hy1]. apply Hc2. split; [|exact Hy1]. destruct Hf as [->| ->]; [reflexivity|]. destruct Hx as [->| ->]; discriminate Hb.
  - rewrite Ht in Hg'. congruence.
Qed.
(** Removing: the instance with the name, only. *)
Theorem C42_rm : forall l e xt n, let s := run W init l in
  match step W s (Rm e xt n) with
  | (OK, s') => exists x, key x = (e_ns e, xt, n) /\ Permutation (instances s) (x :: instances s') /\ cands s' = cands s /\ held s' = held s /\
      (forall y o, In y (users s') -> In o (databases_of y) -> contents s' o = contents s o)
  | (Err err, s') => s' = s /\ (valid_name n -> xt = 1 \/ xt = 2 -> err = ESRCH /\ ~ In (e_ns e, xt, n) (map key (instances s)))
  end.
Proof.
  intros l e xt n s. pose proof (proj1 (R l)) as I. fold s in I. cbn [step]. unfold if_xt. destruct ((xt =? XT_SIIT) || (xt =? XT_NAT64)) eqn:Ex; [|split; [reflexivity|]; unfold XT_SIIT, XT_NAT64 in Ex; lia].
  pose proof (rm_spec W H [] e xt n s I) as P. destruct (xlator_rm W e xt n s) as [[|err] s']; [|exact P]. destruct P as (I' & (i & Hi & Hk & Pi) & K & Ec & Eh & _). exists (i_x i). split; [exact Hk|]. split.
  - unfold instances. rewrite Pi. apply (Permutation_map i_x (unlink_perm _ i (b_ids _ _ (v_tb _ _ _ _ I)) Hi)).
  - split; [exact Ec|]. split; [exact Eh|]. intros y o Hy Ho. unfold contents. apply K. apply (in_users [] s' y); assumption.
Qed.
(** Flushing: the instances of the namespace and type, only. *)
Theorem C42_flush : forall l e xt, let s := run W init l in xt = 1 \/ xt = 2 -> let (r, s') := step W s (Flush e xt) in
  r = OK /\ instances s' = filter (fun x => negb ((x_ns x =? e_ns e) && (type_of x =? xt))) (instances s) /\ cands s' = cands s /\ held s' = held s /\
  (forall y o, In y (users s') -> In o (databases_of y) -> contents s' o = contents s o).
Proof.
  intros l e xt s Hx. pose proof (proj1 (R l)) as I. fold s in I. cbn [step]. unfold if_xt, xlator_flush. replace (xt_validate xt) with OK by (symmetry; apply xt_validate_spec; exact Hx). replace ((xt =? XT_SIIT) || (xt =? XT_NAT64)) with true by (unfold XT_SIIT, XT_NAT64; lia).
  destruct (flush_spec W [] (e_ns e) xt s I) as (I' & Pi & K & Ec & Eh & _). split; [reflexivity|]. split; [|split; [exact Ec|split; [exact Eh|intros y o Hy Ho; unfold contents; apply K; apply (in_users [] _ y); assumption]]].
  unfold instances. rewrite Pi. pose proof (b_wf _ _ (v_tb _ _ _ _ I)) as F. revert F. generalize (concat (table s)). intros t F. induction t as [|i t IH]; [reflexivity|]. cbn [filter map].
  replace (gonep (e_ns e) xt i) with ((x_ns (i_x i) =? e_ns e) && (type_of (i_x i) =? xt)). { destruct (negb _); cbn [map]; rewrite IH by (intros; apply F; right; assumption); reflexivity. }
  unfold gonep. f_equal. rewrite bit_and_3 by (destruct Hx as [->| ->]; reflexivity). fold (type_of (i_x i)). destruct (type_cases (i_x i) (F i (or_introl eq_refl))) as [->| ->], Hx as [->| ->]; reflexivity.
Qed.
(** The hooks in the kernel, and the list that packets search, are those of the Netfilter instances there are. *)
Theorem C42_hooks : forall l, let s := run W init l in let nf := filter (fun x => framework_of x =? 1) (instances s) in
  Permutation (map fst (hooks s)) (map x_ns nf) /\ NoDup (map snd (hooks s)) /\ Permutation (map i_x (nf_list s)) nf.
Proof.
  intros l s nf. pose proof (proj1 (R l)) as I. fold s in I. destruct I as [T Hk _ _].
  assert (En : forall t, (forall i, In i t -> well_formed (i_x i)) -> map i_x (filter nfi t) = filter (fun x => framework_of x =? 1) (map i_x t)).
  { intros t. induction t as [|i t IH]; intros F; [reflexivity|]. cbn [filter map]. unfold nfi at 1. rewrite is_netfilter_spec by (apply F; left; reflexivity). destruct (framework_of (i_x i) =? 1); cbn [map]; rewrite IH by (intros; apply F; right; assumption); reflexivity. }
  specialize (En _ (b_wf _ _ T)). fold (instances s) in En. fold nf in En. split; [|split].
  - rewrite (h_perm _ _ Hk). cbn [app]. rewrite map_map. cbn [hook fst]. rewrite <- (map_map i_x x_ns), En. reflexivity.
  - apply (h_nodup _ _ Hk).
  - rewrite <- En. apply Permutation_map. apply (b_nf _ _ T).
Qed.
(** Packets find a Netfilter instance of their namespace, if there is one. *)
Theorem C42_packets : forall l ns, let s := run W init l in
  match xlator_find_netfilter s ns with
  | Some i => In (i_x i) (instances s) /\ x_ns (i_x i) = ns /\ framework_of (i_x i) = 1
  | None => forall x, In x (instances s) -> x_ns x = ns -> framework_of x <> 1
  end.
Proof.
  intros l ns s. pose proof (proj1 (R l)) as I. fold s in I. pose proof (v_tb _ _ _ _ I) as T. unfold xlator_find_netfilter. destruct (find _ (nf_list s)) as [i|] eqn:Ef.
  - apply find_some in Ef as [Hi En]. apply (nf_in W s i T) in Hi as [Hi Ni]. split; [apply in_map; exact Hi|]. split; [lia|]. unfold nfi in Ni. rewrite is_netfilter_spec in Ni by (apply (b_wf _ _ T); exact Hi). apply Z.eqb_eq. exact Ni.
  - intros x Hx En Fx. apply in_map_iff in Hx as (i & <- & Hi). assert (Hn : In i (nf_list s)). { apply (Permutation_in _ (Permutation_sym (b_nf _ _ T))). apply filter_In. split; [exact Hi|]. unfold nfi. rewrite is_netfilter_spec by (apply (b_wf _ _ T); exact Hi). apply Z.eqb_eq. exact Fx. }
    apply (find_none _ _ Ef) in Hn. cbn in Hn. lia.
Qed.
(** There are no two Netfilter instances of a type in a namespace, if no upload has created
    an instance (rather than replacing one). The full claim, without [no_creation], is
    refuted below. *)
Theorem C42_netfilter_partial : forall l, no_creation W init l ->
  NoDup (map (fun x => (x_ns x, type_of x)) (filter (fun x => framework_of x =? 1) (instances (run W init l)))).
Proof. intros l Hn. apply (nfu_run W H l init (good_init W)); [apply NoDup_nil|exact Hn]. Qed.

(** ** C43: atomic configuration *)

(** A message that fails, or that is not the last, changes no instance: neither the
    tables nor the settings nor what is in the databases. *)
Theorem C43_unchanged : forall l e m, let s := run W init l in let (r, s') := step W s (Atomic e m) in r <> OK \/ m_end m = false ->
  table s' = table s /\ nf_list s' = nf_list s /\ hooks s' = hooks s /\ held s' = held s /\
  forall x, In x (instances s ++ held s) -> config_of s' x = config_of s x.
Proof.
  intros l e m s. pose proof (R l) as G. fold s in G. cbn [step]. apply (if_xt_cases W H (fun r : rc * state D => let (r, s') := r in _)); [|auto 8]. intros _. pose proof (atomic_spec W H e m s G) as P. destruct (atomconfig_add W e m s) as [r s'].
  destruct P as (_ & _ & P & _). intros Hr. destruct (P Hr) as [(E1 & E2 & E3 & E4 & _) K]. repeat (split; [assumption|]). intros x Hx. unfold config_of. f_equal. apply map_ext_in. intros o Ho. unfold contents. apply K. unfold live. apply in_flat_map. exists x. auto.
Qed.
(** What one message does: the changes that it asks for, in order, to the candidate of the process, namespace and name
    (a new one with default settings, if it is the first message). If it is the last one, the
    instance of that namespace, type and name becomes that (keeping its BIB and
    joold), and the candidate is gone; the other instances and candidates are as they were. *)
Theorem C43_message : forall l e m, let s := run W init l in let (r, s') := step W s (Atomic e m) in r = OK ->
  valid_name (m_name m) /\ exists c c' f g, begun W e m s c f /\ well_formed (c_x c) /\ uploaded W m (c_x c) (c_x c') f g /\
    (forall o, In o (databases_of (c_x c')) -> alive s' o -> contents s' o = g o) /\
    (forall x o, In x (instances s ++ held s) -> In o (databases_of x) -> alive s' o -> contents s' o = contents s o) /\
    (forall d, In d (cands s) -> c_id d <> c_id c -> In d (cands s') \/ expired e d) /\
    (forall d, In d (cands s') -> c_id d <> c_id c -> In d (cands s) /\ config_of s' (c_x d) = config_of s (c_x d)) /\
    if m_end m then ~ In (c_id c) (map c_id (cands s')) /\ replaced (c_x c') s s' /\ (type_of (c_x c') = 2 -> set6 (pool6 (x_glob (c_x c'))) = true) /\ bad_cand s' = true
    else In (Cand (c_id c) (c_x c') (e_now e) (c_pid c)) (cands s') /\ instances s' = instances s.
Proof.
  intros l e m s. pose proof (R l) as G. fold s in G. cbn [step]. apply (if_xt_cases W H (fun r : rc * state D => let (r, s') := r in _)); [|discriminate]. intros _. pose proof (atomic_spec W H e m s G) as P. destruct (atomconfig_add W e m s) as [r s'].
  intros ->. destruct P as (G' & _ & Same & V & c & c' & f & g & B & F & U & Ei & Ep & O & X & C & L & Z). split; [exact V|]. exists c, c', f, g. split; [exact B|]. split; [exact F|]. split; [exact U|].
  assert (Al : forall o, alive s' o -> In o (refs [] s')) by (intros o Ho; apply (objs_ok_alive _ _ _ (r_objs _ _ (v_rf _ _ _ _ (proj1 G')))); exact Ho).
  split; [intros o Ho Ha; apply C; [exact Ho|apply Al; exact Ha]|]. split; [|split; [exact X|split]].
  - intros x o Hx Ho Ha. unfold contents. apply L. apply filter_In. split; [apply Al; exact Ha|]. apply existsb_exists. exists o. split; [|apply Z.eqb_refl]. unfold live. apply in_flat_map. exists x. auto.
  - intros d Hd Hn. destruct (O d Hd Hn) as [Hd' K]. split; [exact Hd'|]. unfold config_of. f_equal. apply map_ext_in. intros o Ho. unfold contents. apply K. exact Ho.
  - destruct (m_end m); [tauto|]. split; [exact Z|]. destruct (Same (or_intror eq_refl)) as [(Et & _) _]. unfold instances. rewrite Et. reflexivity.
Qed.
(** A message that fails destroys its candidate, and changes no other. *)
Theorem C43_failed : forall l e m, let s := run W init l in let (r, s') := step W s (Atomic e m) in r <> OK ->
  (forall d, In d (cands s') -> In d (cands s) /\ config_of s' (c_x d) = config_of s (c_x d)) /\
  (forall d, In d (cands s) -> In d (cands s') \/ expired e d \/ (m_init m = None /\ find (addressed e (m_name m)) (cands s) = Some d)).
Proof.
  intros l e m s. pose proof (R l) as G. fold s in G. cbn [step]. apply (if_xt_cases W H (fun r : rc * state D => let (r, s') := r in _)); [|auto]. intros _. pose proof (atomic_spec W H e m s G) as P. destruct (atomconfig_add W e m s) as [r s'].
  intros Hr. destruct P as (_ & _ & _ & P). destruct r as [|err]; [congruence|]. destruct P as [O X]. split; [|exact X]. intros d Hd. destruct (O (c_id d + 1) d Hd) as [Hd' K]; [lia|]. split; [exact Hd'|]. unfold config_of. f_equal. apply map_ext_in. intros o Ho. unfold contents. apply K. exact Ho.
Qed.
(** Nothing else changes candidates. *)
Theorem C43_candidates : forall l o, let s := run W init l in let s' := snd (step W s o) in (forall e m, o <> Atomic e m) ->
  cands s' = cands s /\ forall c, In c (cands s) -> config_of s' (c_x c) = config_of s (c_x c).
Proof.
  intros l o s s' Ho. destruct (frame_step W H s o (R l) Ho) as [Ec K]. fold s' in Ec, K. split; [exact Ec|]. intros c Hc. unfold config_of. f_equal. apply map_ext_in. intros a Ha. unfold contents. apply (K c Hc). exact Ha.
Qed.
(** No two candidates share a database, nor does a candidate with an instance. *)
Theorem C43_apart : forall l c o, let s := run W init l in In c (cands s) -> In o (databases_of (c_x c)) -> references s o = 1.
Proof. intros l c o s Hc Ho. apply (proj2 (R l) c o Hc Ho). Qed.

(** ** C64: the databases' reference counts *)

(** After any history, a database exists if and only if an instance, a candidate or a clone in use refers to it; its
    count is the number of references; and none has been used after being freed. *)
Theorem C64 : forall l, let s := run W init l in bad_ref s = false /\
  forall o, match objs s o with Some (_, n) => n = references s o /\ 1 <= n | None => references s o = 0 end.
Proof. intros l s. pose proof (proj1 (R l)) as I. split; [apply I|]. apply (r_objs _ _ (v_rf _ _ _ _ I)). Qed.

(** ** C44: settings *)

(** After any history, instances run with settings in their documented ranges, and those of NAT64 have a
    pool6. *)
Theorem C44_instances : forall l x, Forall wt_op l -> In x (instances (run W init l) ++ held (run W init l)) ->
  documented (type_of x) (x_glob x) /\ (type_of x = 2 -> set6 (pool6 (x_glob x)) = true).
Proof.
  intros l x Hw Hx. destruct (goks_run W H l init (good_init W) goks_init Hw) as [H1 _]. destruct (H1 x Hx) as [[H2 _] H3]. auto.
Qed.
(** An update is applied to the settings of the instance with the name, and to nothing else; or
    not at all. *)
Theorem C44_update : forall l e xt n force msg, let s := run W init l in
  match step W s (GlobalUpdate e xt n force msg) with
  | (OK, s') => exists x m g rest, key x = (e_ns e, xt, iname n) /\ msg = Some m /\ global_update (x_glob x) xt force m = (OK, g) /\
      Permutation (instances s) (x :: rest) /\ Permutation (instances s') (with_glob x g :: rest) /\ hooks s' = hooks s /\ cands s' = cands s /\ held s' = held s /\ forall o, contents s' o = contents s o
  | (Err _, s') => table s' = table s /\ nf_list s' = nf_list s /\ hooks s' = hooks s /\ cands s' = cands s /\ held s' = held s /\ forall o, contents s' o = contents s o
  end.
Proof.
  intros l e xt n force msg s. pose proof (proj1 (R l)) as I. fold s in I. cbn [step]. apply (if_xt_cases W H (fun r => match r with (OK, s') => _ | (Err _, s') => _ end)); [|auto 8]. intros Hx.
  pose proof (global_spec W H e xt n force msg s Hx I) as P. destruct (handle_global_update W e xt n force msg s) as [[|err] s'].
  - destruct P as (_ & (i & new & m & g & Hi & Hk & Em & Eg & En & Eh & Pi & _) & Eo & Ec & Ed & _). exists (i_x i), m, g, (map i_x (unlink (concat (table s)) i)). split; [exact Hk|]. split; [exact Em|]. split; [exact Eg|].
    split; [apply (Permutation_map i_x (unlink_perm _ i (b_ids _ _ (v_tb _ _ _ _ I)) Hi))|]. split; [rewrite (instances_perm s s' _ Pi); cbn [map]; rewrite En; reflexivity|]. repeat (split; [assumption|]). intros o. unfold contents. rewrite Eo. reflexivity.
  - destruct P as (_ & Eo & P1 & P2 & P3 & P4 & P5 & _). repeat (split; [assumption|]). intros o. unfold contents. rewrite Eo. reflexivity.
Qed.

(** ** C65: listing the instances *)

(** However many fit in each reply, the client is shown each instance of the type exactly once, provided that
    the low 32 bits of the addresses of namespaces are enough to tell them apart. (The
    full claim, without the latter, is refuted below.) *)
Theorem C65_partial : forall l xt caps, let s := run W init l in let shown := filter (fun x => type_of x =? xt) (instances s) in xt = 1 \/ xt = 2 ->
  (forall x y, In x shown -> In y shown -> x_ns x mod 2 ^ 32 = x_ns y mod 2 ^ 32 -> x_ns x = x_ns y) -> Forall (fun c => (1 <= c)%nat) caps -> (length shown < length caps)%nat ->
  client (reply s xt) caps None = LDone (map entry shown).
Proof.
  intros l xt caps s shown Hx Hns Hc Hl. pose proof (proj1 (R l)) as I. fold s in I. pose proof (v_tb _ _ _ _ I) as T.
  assert (Ev : map view (filter (shown_by xt) (concat (table s))) = map entry shown).
  { unfold shown, instances. pose proof (b_wf _ _ T) as F. revert F. generalize (concat (table s)). intros t F. induction t as [|i t IH]; [reflexivity|]. cbn [filter map].
    replace (shown_by xt i) with (type_of (i_x i) =? xt). { destruct (type_of (i_x i) =? xt); cbn [map]; rewrite IH by (intros; apply F; right; assumption); reflexivity. }
    unfold shown_by. rewrite flags2xt_mod. fold (type_of (i_x i)). destruct (type_cases (i_x i) (F i (or_introl eq_refl))) as [->| ->], Hx as [->| ->]; reflexivity. }
  assert (Ec : forall caps off, client (reply s xt) caps off = client (foreach_page view_eqb (map entry shown)) caps off).
  { clear Hc Hl. intros cs. induction cs as [|c cs IH]; intros off; [reflexivity|]. cbn [client]. rewrite reply_page, Ev. destruct (foreach_page view_eqb (map entry shown) c off) as [[p [|]] [o|]]; try reflexivity. destruct p; [reflexivity|]. rewrite IH. reflexivity. }
  rewrite Ec. apply (list_pages_exact view_eqb view_eqb_spec); [|exact Hc|rewrite map_length; exact Hl].
  assert (Nd : NoDup (map key shown)). { unfold shown. clear - T. pose proof (b_keys _ _ T) as N. revert N. generalize (instances s). intros t N. apply nodup_map_filter. exact N. }
  assert (Ht : forall x, In x shown -> type_of x = xt) by (intros x Hxs; apply filter_In in Hxs; apply Z.eqb_eq; apply Hxs).
  revert Nd Hns Ht. clear. clearbody shown. induction shown as [|x t IH]; intros Nd Hns Ht; [apply NoDup_nil|]. cbn [map] in *. inversion Nd; subst. constructor.
  - intros Hi. apply in_map_iff in Hi as (y & Ey & Hy). injection Ey as E1 E2. apply H1. apply in_map_iff. exists y. split; [|exact Hy]. unfold key. rewrite (Hns y x) by (cbn; auto). rewrite E2, (Ht y), (Ht x) by (cbn; auto). reflexivity.
  - apply IH; auto; intros; [apply Hns|apply Ht]; cbn; auto.
Qed.
End Inst.
Print Assumptions C42_names. Print Assumptions C42_find. Print Assumptions C42_add. Print Assumptions C42_add_works. Print Assumptions C42_rm. Print Assumptions C42_flush.
Print Assumptions C42_hooks. Print Assumptions C42_packets. Print Assumptions C42_netfilter_partial. Print Assumptions C43_unchanged. Print Assumptions C43_message. Print Assumptions C43_failed.
Print Assumptions C43_candidates. Print Assumptions C43_apart. Print Assumptions C64. Print Assumptions C44_instances. Print Assumptions C44_update. Print Assumptions C65_partial.

(** ** Concrete cases *)

(** Databases that are lists of numbers; negative entries are rejected, and 7 is one that a BIB cannot have if it is not in pool4. *)
Definition W0 : databases (list Z) Z :=
  DB _ _ (fun _ => []) (fun _ _ _ en d => if en <? 0 then (Err EINVAL, d) else (OK, en :: d)) (fun _ p b => forallb (fun en => existsb (Z.eqb en) p) b)
    (fun ns xt n => Z.to_nat ((ns + xt + Z.of_nat (length n)) mod 64)).
Lemma W0_hashed : hashed W0. Proof. intros ns xt n. unfold W0. cbn [bucket]. lia. Qed.
Definition e0 (ns pid now : Z) : env := Env ns pid now 2000 (fun _ => true) OK memory.
Definition siit_a : op (D := list Z) (E := Z) := Add (e0 5 1 0) 1 4 [97] None.
Definition nat64_b : op (D := list Z) (E := Z) := Add (e0 5 1 0) 2 4 [98] (Some wkp).
Definition message0 (xt : Z) (n : name) (i : option Z) (g : option (list (Z * gval))) (ea p4 bib : option (list Z)) (fin : bool) : message := Msg xt n false i g None ea p4 bib fin.

(** Two instances, one of them replaced through three messages, another candidate
    being abandoned, a clone in use meanwhile *)
Definition history0 : list (op (D := list Z) (E := Z)) :=
  [siit_a; nat64_b; Add (e0 6 1 0) 1 8 [97] None;
   Atomic (e0 5 10 100) (message0 1 [97] (Some 4) None (Some [1; 2]) None None false);
   Atomic (e0 5 11 200) (message0 1 [99] (Some 8) None None None None false);
   Packet 5;
   Atomic (e0 5 10 300) (message0 1 [97] None (Some [(JNLAG_ENABLED, VU8 0)]) (Some [3]) None None false);
   Atomic (e0 5 10 9000) (message0 1 [97] None None (Some [4]) None None true)].
Example C42_nontrivial : hashed W0 /\ let s := run W0 init history0 in map key (instances s) = [(5, 1, [97]); (6, 1, [97]); (5, 2, [98])] /\ length (hooks s) = 2%nat /\ length (held s) = 1%nat /\
  no_creation W0 init history0 /\ fst (xlator_find W0 s 5 (Z.lor 4 1) [97]) = OK /\ fst (xlator_find W0 s 5 (Z.lor 8 1) [97]) = Err ESRCH.
Proof.
  split; [exact W0_hashed|]. assert (Hk : map key (instances (run W0 init history0)) = [(5, 1, [97]); (6, 1, [97]); (5, 2, [98])]) by (vm_compute; reflexivity). cbn zeta. split; [exact Hk|].
  split; [vm_compute; reflexivity|]. split; [vm_compute; reflexivity|]. split; [|split; vm_compute; reflexivity].
  cbn [history0 no_creation siit_a nat64_b]. repeat (split; [exact Logic.I|]). split; [vm_compute; tauto|]. split; [vm_compute; tauto|]. split; [exact Logic.I|]. split; [vm_compute; tauto|]. split; [|exact Logic.I]. intros k Hin. vm_compute in Hin. vm_compute. tauto.
Qed.
(** An upload can create a second Netfilter instance of a type in a namespace (src/mod/common/xlator.c:644-735: when
    there is nothing to replace, it is added without validate_collision()). *)
Theorem C42_netfilter_refuted : exists (D E : Type) (W : databases D E) l x y, hashed W /\ In x (instances (run W init l)) /\ In y (instances (run W init l)) /\ x_name x <> x_name y /\ clash x y.
Proof.
  exists (list Z), Z, W0, [siit_a; Atomic (e0 5 10 100) (message0 1 [99] (Some 4) None None None None true)].
  assert (Hl : exists x y, instances (run W0 init [siit_a; Atomic (e0 5 10 100) (message0 1 [99] (Some 4) None None None None true)]) = [x; y] /\ x_name x <> x_name y /\ clash x y).
  { eexists _, _. split; [vm_compute; reflexivity|]. cbn [x_name]. split; [discriminate|]. vm_compute. auto. }
  destruct Hl as (x & y & Hl & Hn & Hc). exists x, y. rewrite Hl. split; [exact W0_hashed|]. cbn [In]. auto.
Qed.
Print Assumptions C42_netfilter_refuted.
(** With a SIIT and a NAT64 in a namespace, both Netfilter, all packets go to one of them; and an update
    of the settings of the other, even an empty one, diverts them to that other. *)
Theorem C42_packets_refuted : exists (D E : Type) (W : databases D E) l e, hashed W /\ let s := run W init l in let s' := snd (step W s (GlobalUpdate e 2 [98] false (Some []))) in
  option_map (fun i => type_of (i_x i)) (xlator_find_netfilter s 5) = Some 1 /\ option_map (fun i => type_of (i_x i)) (xlator_find_netfilter s' 5) = Some 2 /\
  map (fun x => (x_ns x, type_of x, framework_of x)) (instances s) = [(5, 1, 1); (5, 2, 1)] /\ map (fun x => (x_ns x, type_of x, framework_of x)) (instances s') = [(5, 1, 1); (5, 2, 1)].
Proof.
  exists (list Z), Z, W0, [siit_a; nat64_b], (e0 5 1 0). split; [exact W0_hashed|]. cbn zeta. repeat split; vm_compute; reflexivity.
Qed.
Print Assumptions C42_packets_refuted.

(** The candidate of [history0] becomes the instance, and nothing else changes; the other one expires when its time comes. *)
Example C43_nontrivial : hashed W0 /\ let s0 := run W0 init (firstn 7 history0) in let s := run W0 init history0 in
  map (fun x => (g_dbs (config_of s0 x), num (x_glob x) JNLAG_ENABLED)) (instances s0) = [([Some []; Some []; Some []], 1); ([Some []; Some []; Some []], 1); ([Some []; Some []; Some []; Some []], 1)] /\
  map (fun c => g_dbs (config_of s0 (c_x c))) (cands s0) = [[Some []; Some []; Some []]; [Some []; Some [3; 2; 1]; Some []]] /\
  map (fun x => (g_dbs (config_of s x), num (x_glob x) JNLAG_ENABLED)) (instances s) = [([Some []; Some [4; 3; 2; 1]; Some []], 0); ([Some []; Some []; Some []], 1); ([Some []; Some []; Some []; Some []], 1)] /\
  cands s = [] /\ (let r := step W0 s0 (Atomic (e0 5 10 400) (message0 1 [97] None None (Some [8; -1]) None None true)) in fst r = Err EINVAL /\ map (fun c => x_name (c_x c)) (cands (snd r)) = [[99]] /\ instances (snd r) = instances s0).
Proof. split; [exact W0_hashed|]. vm_compute. repeat split. Qed.
(** A candidate is written to after it is freed, whenever an upload succeeds (src/mod/common/atomic_config.c:367: update_time; commit() has called
    candidate_destroy()). [C43_message] says so for every END. *)
Theorem C43_refuted : exists (D E : Type) (W : databases D E) l, hashed W /\ bad_cand (run W init l) = true.
Proof. exists (list Z), Z, W0, [Atomic (e0 5 10 100) (message0 1 [99] (Some 4) None None None None true)]. split; [exact W0_hashed|]. vm_compute. reflexivity. Qed.
Print Assumptions C43_refuted.
(** The NAT64 keeps its BIB: the entries that were uploaded for it are lost, although the upload succeeds. *)
Theorem C43_bib_refuted : exists (D E : Type) (W : databases D E) l e m, hashed W /\ let s := run W init l in let (r, s') := step W s (Atomic e m) in
  r = OK /\ m_end m = true /\ (exists c o d, map c_x (cands s) = [c] /\ db_of Bib c = Some o /\ contents s o = Some d /\ d <> db_new W Bib) /\
  map (fun x => match db_of Bib x with Some o => contents s' o | None => None end) (instances s') = [Some (db_new W Bib)].
Proof.
  exists (list Z), Z, W0, [nat64_b; Atomic (e0 5 10 100) (message0 2 [98] (Some 4) (Some [(JNLAG_POOL6, VPrefix6 (Some (p6_len wkp)) (Some (p6_addr wkp)))]) None (Some [7]) (Some [7]) false)], (e0 5 10 200), (message0 2 [98] None None None None None true).
  split; [exact W0_hashed|]. vm_compute. split; [reflexivity|]. split; [reflexivity|]. split; [|reflexivity]. eexists _, _, _. split; [reflexivity|]. split; [reflexivity|]. split; [reflexivity|]. discriminate.
Qed.
Print Assumptions C43_bib_refuted.

Example C64_nontrivial : let s := run W0 init history0 in map (fun x => map (references s) (databases_of x)) (instances s) = [[1; 1; 1]; [1; 1; 1]; [1; 1; 1; 1]] /\ map (fun x => map (references s) (databases_of x)) (held s) = [[1; 1; 1]] /\
  let s' := run W0 init (history0 ++ [Packet 5]) in map (fun x => map (references s') (databases_of x)) (held s') = [[2; 2; 2]; [1; 1; 1]].
Proof. vm_compute. auto. Qed.
Example C44_instances_nontrivial : Forall wt_op history0 /\ map (fun x => (type_of x, set6 (pool6 (x_glob x)), num (x_glob x) JNLAG_ENABLED)) (instances (run W0 init history0)) = [(1, false, 0); (1, false, 1); (2, true, 1)].
Proof.
  split; [|vm_compute; reflexivity]. unfold history0, siit_a, nat64_b. repeat (constructor; [cbn [wt_op e0 e_mem m_globals message0]; try (split; [exact memory_wt|]); try exact Logic.I|]); try (constructor; fail); unfold wkp; cbn [p6_addr p6_len]; lia.
Qed.

(** Three instances of two namespaces, in replies of one, two and one *)
Example C65_nontrivial : let l := [siit_a; Add (e0 6 1 0) 1 8 [97] None; Add (e0 5 1 0) 1 8 [98] None; nat64_b] in let s := run W0 init l in
  client (reply s 1) [1; 1; 1; 1]%nat None = LDone [(5, [98]); (5, [97]); (6, [97])].
Proof. vm_compute. reflexivity. Qed.
(** Namespaces whose addresses have the same low 32 bits: the client asks forever,
    and is never shown one of the instances. *)
Definition twins : list (op (D := list Z) (E := Z)) := [Add (e0 5 1 0) 1 8 [99] None; Add (e0 (2 ^ 32 + 5) 1 0) 1 8 [97] None; Add (e0 5 1 0) 1 8 [98] None; Add (e0 5 1 0) 1 8 [97] None].
Theorem C65_refuted : exists (D E : Type) (W : databases D E) l, hashed W /\ let s := run W init l in map entry (instances s) = [(5, [97]); (5, [98]); (5, [97]); (5, [99])] /\
  forall n, exists r, client (reply s 1) (repeat 1%nat n) None = LPending r /\ ~ In (5, [99]) r.
Proof.
  exists (list Z), Z, W0, twins. split; [exact W0_hashed|]. cbn zeta. split; [vm_compute; reflexivity|]. set (s := run W0 init twins).
  assert (P0 : reply s 1 1 None = ([(5, [97])], true, None)) by (vm_compute; reflexivity).
  assert (P1 : reply s 1 1 (Some (5, [97])) = ([(5, [98])], true, None)) by (vm_compute; reflexivity).
  assert (P2 : reply s 1 1 (Some (5, [98])) = ([(5, [97])], true, None)) by (vm_compute; reflexivity). clearbody s.
  assert (L : forall n, (exists r, client (reply s 1) (repeat 1%nat n) (Some (5, [97])) = LPending r /\ ~ In (5, [99]) r) /\ (exists r, client (reply s 1) (repeat 1%nat n) (Some (5, [98])) = LPending r /\ ~ In (5, [99]) r)).
  { intros n. induction n as [|n [(r1 & E1 & H1) (r2 & E2 & H2)]]; cbn [repeat client]; [split; exists []; cbn; auto|]. rewrite P1, P2. cbn [last]. unfold name in *. rewrite E1, E2. cbn [lcons].
    split; eexists; (split; [reflexivity|]); cbn [app In]; intros [Hx|Hx]; try discriminate Hx; contradiction. }
  intros [|n]; [exists []; cbn; auto|]. cbn [repeat client]. rewrite P0. cbn [last]. destruct (L n) as [(r & E1 & H1) _]. unfold name in *. rewrite E1. eexists. split; [reflexivity|]. cbn [app In]. intros [Hx|Hx]; [discriminate Hx|contradiction].
Qed.
Print Assumptions C65_refuted.
