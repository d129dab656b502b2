(** C82: what one side writes in a Netlink message is what the other side reads. *)
Require Import Verif.Base Verif.Addr_Model Verif.Pool4_Model Verif.Bib_Model Verif.Glob_Model Verif.Inst_Model Verif.File_Model.
Require Import Verif.Nla_Model Verif.Nla_Spec Verif.Nla_Proofs.
Local Ltac Zify.zify_post_hook ::= Z.div_mod_to_equations.

Ltac car fl xx := apply carried with (f := fl) (x := xx);
  [first [apply flagger_u | apply flagger_k]| | | | |].
Ltac zz := rewrite ?zlen_prefix6, ?zlen_prefix4, ?zlen_none, ?zlen_taddr6, ?zlen_taddr4, ?zlen_eam, ?zlen_pool4, ?zlen_bib, ?zlen_session, ?zlen_plateaus; first [reflexivity | lia].

(** Entries of the databases, from the client to the module *)
Theorem C82_entry_to_module : forall h e, fit_entry e ->
  carries h (fun cap ty e => put_entry_u h cap ty e) (fun a => get_entry_k h (home e) (Some a)) e e (entry_size e).
Proof.
  intros h [p6 p4|p|m i g q p r|a b q s] W; cbn [home entry_size get_entry_k].
  - destruct W. car (@flag_u) (d_eam h flag_u p6 p4); try zz; intros; [apply w_eam_u|apply r_eam_k; [apply flagger_u|lia|assumption|assumption]].
  - car (@flag_u) (d_prefix4 h p); try zz; intros; [apply w_prefix4_u|]. rewrite mandatory_k4 by first [apply flagger_u | lia | assumption]. reflexivity.
  - car (@flag_u) (d_pool4 h flag_u m i g q p r); try zz; intros; [apply w_pool4_u|apply r_pool4_k; [apply flagger_u|lia|assumption]].
  - car (@flag_u) (d_bib h flag_u a b q s); try zz; intros; [apply w_bib_u|apply r_bib_k; [apply flagger_u|lia|assumption]].
Qed.
Print Assumptions C82_entry_to_module.

(** Whatever octets the module gets: what an entry leaves out is zero, which is no mark, the default number of iterations, and not static. *)
Definition lacks (h : host) (a : attr) (ty : Z) : Prop := Forall (fun x => nla_type x <> ty) (fst (attributes h (a_data a))).
Lemma parse_lacks : forall h maxtype p l t t' i, parse_each_k h maxtype p l t = Got t' -> Forall (fun x => nla_type x <> i) l -> t' i = t i.
Proof.
  intros h maxtype p. induction l as [|a l IH]; intros t t' i H L; [injection H as <-; reflexivity|].
  inversion L as [|x y L1 L2]; subst. cbn [parse_each_k] in H.
  repeat match type of H with context [if ?c then _ else _] => destruct c end; try discriminate H;
    first [exact (IH _ _ _ H L2) | rewrite (IH _ _ _ H L2); unfold tset; destruct (Z.eqb_spec i (nla_type a)); [congruence|reflexivity]].
Qed.
Lemma nested_lacks : forall h maxtype p a t i, nla_parse_nested_k h maxtype a p = Got t -> lacks h a i -> t i = None.
Proof.
  intros h maxtype p a t i H L. unfold nla_parse_nested_k, nla_parse_k in H. unfold lacks in L.
  destruct (attributes h (a_data a)) as [l r]. cbn [fst] in L.
  repeat match type of H with context [if ?c then _ else _] => destruct c; try discriminate H end;
  (destruct (parse_each_k h maxtype p l empty) as [t'|?|] eqn:E; try discriminate H; cbn [rbind] in H;
   repeat match type of H with context [match ?c with _ => _ end] => destruct c; try discriminate H end;
   injection H as <-; rewrite (parse_lacks _ _ _ _ _ _ _ E L); reflexivity).
Qed.
Ltac unbind H := match type of H with rbind ?r _ = _ => let E := fresh "E" in destruct r as [?|?|] eqn:E; try discriminate H; cbn [rbind] in H end.
Theorem C82_left_out : forall h a,
  (forall m i g q p r, jnla_get_pool4 h (Some a) = Got (EPool4 m i g q p r) ->
     (lacks h a JNLAP4_MARK -> m = 0) /\ (lacks h a JNLAP4_ITERATIONS -> i = 0) /\ (lacks h a JNLAP4_FLAGS -> g = 0)) /\
  (forall a6 a4 q s, jnla_get_bib h (Some a) = Got (EBib a6 a4 q s) -> lacks h a JNLAB_STATIC -> s = false).
Proof.
  intros h a. split.
  - intros m i g q p r H. unfold jnla_get_pool4, validate_null in H. cbn [rbind] in H. do 8 unbind H. injection H as <- <- <- <- <- <-.
    repeat split; intros L; rewrite (nested_lacks _ _ _ _ _ _ E L) in *; cbn [get_or_zero] in *; congruence.
  - intros a6 a4 q s H L. unfold jnla_get_bib, validate_null in H. cbn [rbind] in H. do 5 unbind H. injection H as _ _ _ <-.
    rewrite (nested_lacks _ _ _ _ _ _ E L) in *. cbn [get_or_zero] in *. match goal with E : Got 0 = Got _ |- _ => injection E as <- end. reflexivity.
Qed.
Print Assumptions C82_left_out.

(** ... and from the module to the client *)
Theorem C82_entry_to_client : forall h e, fit_entry e ->
  carries h (fun cap ty e => put_entry_k h cap ty e) (get_entry_u h (home e)) e e (entry_size e).
Proof.
  intros h [p6 p4|p|m i g q p r|a b q s] W; cbn [home entry_size get_entry_u].
  - destruct W. car (flag_k h) (d_eam h (flag_k h) p6 p4); try zz; intros; [apply w_eam_k|apply r_eam_u; [apply flagger_k|assumption|assumption]].
  - car (flag_k h) (d_prefix4 h p); try zz; intros; [apply w_prefix4_k|]. unfold get_entry_u. rewrite r_prefix4_u by assumption. reflexivity.
  - car (flag_k h) (d_pool4 h (flag_k h) m i g q p r); try zz; intros; [apply w_pool4_k|apply r_pool4_u; [apply flagger_k|assumption]].
  - car (flag_k h) (d_bib h (flag_k h) a b q s); try zz; intros; [apply w_bib_k|apply r_bib_u; [apply flagger_k|assumption]].
Qed.
Print Assumptions C82_entry_to_client.

(** Sessions, which only travel that way. The timer is not read. *)
Theorem C82_session_to_client : forall h s timer, fit_session s ->
  carries h (fun cap ty s => jnla_put_session h cap ty (us_src6 s) (us_dst6 s) (us_src4 s) (us_dst4 s) (us_proto s) (us_state s) timer (us_dying s))
    (nla_get_session h) s s 140.
Proof.
  intros h [a b c d q s y] t W. car (flag_k h) (d_session h (flag_k h) a b c d q s t y); try zz; intros.
  - apply w_session_k.
  - apply r_session_u; [apply flagger_k|exact W].
Qed.
Print Assumptions C82_session_to_client.

(** Prefixes that may be absent, both ways *)
Theorem C82_prefix6_to_module : forall h p, (forall q, p = Some q -> wt_prefix6 q) ->
  carries h (nla_put_prefix6 h) (fun a => jnla_get_prefix6_optional h (Some a)) p p (match p with Some _ => 32 | None => 12 end).
Proof.
  intros h [p|] W.
  - car (@flag_u) (d_prefix6 h p); try zz; intros; [apply w_prefix6_u|apply r_prefix6_k; [apply flagger_u|lia|apply W; reflexivity]].
  - car (@flag_u) (d_none h); try zz; intros; [apply w_none6_u|apply r_none6_k; [apply flagger_u|lia]].
Qed.
Print Assumptions C82_prefix6_to_module.
Theorem C82_prefix4_to_module : forall h p, (forall q, p = Some q -> wt_prefix4 q) ->
  carries h (nla_put_prefix4 h) (fun a => jnla_get_prefix4_optional h (Some a)) p p (match p with Some _ => 20 | None => 12 end).
Proof.
  intros h [p|] W.
  - car (@flag_u) (d_prefix4 h p); try zz; intros; [apply w_prefix4_u|apply r_prefix4_k; [apply flagger_u|lia|apply W; reflexivity]].
  - car (@flag_u) (d_none h); try zz; intros; [apply w_none4_u|apply r_none4_k; [apply flagger_u|lia]].
Qed.
Print Assumptions C82_prefix4_to_module.
(** The client's functions report that there is no prefix with the error ENOENT. *)
Definition enoent_is_none {A} (r : rd A) : rd (option A) := match r with Got p => Got (Some p) | Bad ENOENT => Got None | Bad e => Bad e | Stray => Stray end.
Theorem C82_prefix6_to_client : forall h p, (forall q, p = Some q -> wt_prefix6 q) ->
  carries h (jnla_put_prefix6 h) (fun a => enoent_is_none (nla_get_prefix6 h (Some a))) p p (match p with Some _ => 32 | None => 12 end).
Proof.
  intros h [p|] W.
  - car (flag_k h) (d_prefix6 h p); try zz; intros; [apply w_prefix6_k|rewrite r_prefix6_u by (apply W; reflexivity); reflexivity].
  - car (flag_k h) (d_none h); try zz; intros; [apply w_none6_k|rewrite r_none6_u; reflexivity].
Qed.
Print Assumptions C82_prefix6_to_client.
Theorem C82_prefix4_to_client : forall h p, (forall q, p = Some q -> wt_prefix4 q) ->
  carries h (jnla_put_prefix4 h) (fun a => enoent_is_none (nla_get_prefix4 h (Some a))) p p (match p with Some _ => 20 | None => 12 end).
Proof.
  intros h [p|] W.
  - car (flag_k h) (d_prefix4 h p); try zz; intros; [apply w_prefix4_k|rewrite r_prefix4_u by (apply W; reflexivity); reflexivity].
  - car (flag_k h) (d_none h); try zz; intros; [apply w_none4_k|rewrite r_none4_u; reflexivity].
Qed.
Print Assumptions C82_prefix4_to_client.

(** Lists of plateaus that are not empty, both ways *)
Theorem C82_plateaus_to_module : forall h l, l <> [] -> zlen l <= 64 -> Forall is_u16 l ->
  carries h (nla_put_plateaus h) (fun a => jnla_get_plateau_values h (Some a)) l l (4 + 8 * zlen l).
Proof.
  intros h l N S W. car (@flag_u) (d_plateaus h l); try zz; intros.
  - apply w_plateaus_u; [exact N|lia].
  - apply r_plateaus_k; assumption.
Qed.
Print Assumptions C82_plateaus_to_module.
Theorem C82_plateaus_to_client : forall h l, l <> [] -> zlen l <= 64 -> Forall is_u16 l ->
  carries h (jnla_put_plateaus h) (nla_get_plateaus h) l l (4 + 8 * zlen l).
Proof.
  intros h l N S W. car (flag_k h) (d_plateaus h l); try zz; intros.
  - apply w_plateaus_k; [exact N|lia].
  - apply r_plateaus_u; assumption.
Qed.
Print Assumptions C82_plateaus_to_client.
(** An empty list of plateaus is not written at all, though the function succeeds. *)
Theorem C82_plateaus_empty_refuted : exists h cap ty b, 1 <= ty <= 16383 /\ nla_put_plateaus h cap ty [] b = Put b.
Proof. exists (Host false true), 100, 8, [1; 2; 3; 4]. split; [lia|]. vm_compute. reflexivity. Qed.
Print Assumptions C82_plateaus_empty_refuted.

(** Whatever the octets of an attribute (or none) are, the module makes an entry that fits its structure of it or
    reports an error. It does not read anything else. *)
Lemma sane_of : forall A (P : A -> Prop) r, yields P r -> sane P r.
Proof. intros A P [a|e|] H; [left; exists a; split; [reflexivity|exact H]|right; exists e; reflexivity|contradiction]. Qed.
Theorem C82_module_safe : forall h k a, (forall x, a = Some x -> octets_ok x) ->
  sane (fun e => fit_entry e /\ home e = k) (get_entry_k h k a).
Proof.
  intros h k a H. destruct k; cbn [get_entry_k].
  - apply sane_of. pose proof (y_eam h a H) as Y. unfold jnla_get_eam in *. 
    destruct a as [a|]; [|exact Logic.I]. cbn [validate_null rbind] in *.
    destruct (nla_parse_nested_k h JNLAE_MAX a eam_policy); cbn [rbind yields] in *; try assumption.
    destruct (jnla_get_prefix6 h (a0 JNLAE_PREFIX6)); cbn [rbind yields] in *; try assumption.
    destruct (jnla_get_prefix4 h (a0 JNLAE_PREFIX4)); cbn [rbind yields] in *; try assumption. split; [exact Y|reflexivity].
  - apply sane_of. apply yields_bind with (P := wt_prefix4); [apply y_mandatory4; exact H|]. intros p W. split; [exact W|reflexivity].
  - apply sane_of. pose proof (y_pool4 h a H) as Y. remember (jnla_get_pool4 h a) as r eqn:E. destruct r as [e|e|]; cbn in *; try assumption. split; [exact Y|].
    unfold jnla_get_pool4, rbind, validate_null in E.
    repeat match type of E with context [match ?x with _ => _ end] => destruct x; try discriminate end. injection E; intros ->. reflexivity.
  - apply sane_of. pose proof (y_bib h a H) as Y. remember (jnla_get_bib h a) as r eqn:E. destruct r as [e|e|]; cbn in *; try assumption. split; [exact Y|].
    unfold jnla_get_bib, rbind, validate_null in E.
    repeat match type of E with context [match ?x with _ => _ end] => destruct x; try discriminate end. injection E; intros ->. reflexivity.
Qed.
Print Assumptions C82_module_safe.
Theorem C82_module_safe_prefixes : forall h a, (forall x, a = Some x -> octets_ok x) ->
  sane (fun o => forall p, o = Some p -> wt_prefix6 p) (jnla_get_prefix6_optional h a) /\
  sane (fun o => forall p, o = Some p -> wt_prefix4 p) (jnla_get_prefix4_optional h a).
Proof. intros h a H. split; apply sane_of; [apply y_prefix6|apply y_prefix4]; exact H. Qed.
Print Assumptions C82_module_safe_prefixes.
(** Plateaus: since Linux 5.2 *)
Theorem C82_module_safe_plateaus_partial : forall h a, h_strict h = true -> (forall x, a = Some x -> octets_ok x) ->
  sane (fun l => Forall is_u16 l /\ zlen l <= 64) (jnla_get_plateau_values h a).
Proof. intros h a S H. apply sane_of. apply y_plateaus; assumption. Qed.
Print Assumptions C82_module_safe_plateaus_partial.
(** Before that, an attribute of an unknown type was not validated, but is read as a number nevertheless. *)
Theorem C82_module_safe_plateaus_refuted : exists h a, h_strict h = false /\ octets_ok a /\ jnla_get_plateau_values h (Some a) = Stray.
Proof.
  exists (Host false false), (Attr 8 [4; 0; 2; 0]). split; [reflexivity|]. split; [|vm_compute; reflexivity].
  unfold octets_ok, is_u8. cbn. repeat (constructor; [lia|]). constructor.
Qed.
Print Assumptions C82_module_safe_plateaus_refuted.

(** The client, of prefixes and plateaus *)
Theorem C82_client_safe_partial : forall h a, octets_ok a ->
  sane wt_prefix6 (nla_get_prefix6 h (Some a)) /\ sane wt_prefix4 (nla_get_prefix4 h (Some a)) /\
  sane (fun l => Forall is_u16 l /\ zlen l <= 64) (nla_get_plateaus h a).
Proof. intros h a H. split; [|split]; apply sane_of; [apply yu_prefix6|apply yu_prefix4|apply yu_plateaus]; exact H. Qed.
Print Assumptions C82_client_safe_partial.
(** Of entries: validate_mandatory_attrs() does not look at the last attribute of the list, nor at addresses.
    If one of those is missing, the null pointer is used. Every kind of entry is affected. *)
Theorem C82_client_safe_refuted : exists h,
  (exists a, octets_ok a /\ nla_get_eam h a = Stray) /\ (exists a, octets_ok a /\ nla_get_pool4 h a = Stray) /\
  (exists a, octets_ok a /\ nla_get_bib h a = Stray) /\ (exists a, octets_ok a /\ nla_get_session h a = Stray) /\
  (exists a, octets_ok a /\ nla_get_taddr4 h (Some a) = Stray /\ fst (attributes h (a_data a)) = [Attr JNLAT_PORT [80; 0]]).
Proof.
  assert (O : forall l, forallb (fun z => (0 <=? z) && (z <? 256)) l = true -> Forall is_u8 l).
  { intros l E. apply Forall_forall. intros z I. rewrite forallb_forall in E. specialize (E z I). unfold is_u8. lia. }
  set (o := Host false true). exists o. split; [|split; [|split; [|split]]].
  - exists (Attr 1 (firstn 32 (d_eam o (flag_k o) (P6 1 128) (P4 2 32)))). split; [apply O; vm_compute; reflexivity|vm_compute; reflexivity].
  - exists (Attr 1 (firstn 60 (d_pool4 o (flag_k o) 0 0 0 1 (P4 2 32) (1, 2)))). split; [apply O; vm_compute; reflexivity|vm_compute; reflexivity].
  - exists (Attr 1 (firstn 60 (d_bib o (flag_k o) (1, 2) (3, 4) 1 true))). split; [apply O; vm_compute; reflexivity|vm_compute; reflexivity].
  - exists (Attr 1 (firstn 128 (d_session o (flag_k o) (1, 2) (3, 4) (5, 6) (7, 8) 1 0 0 9))). split; [apply O; vm_compute; reflexivity|vm_compute; reflexivity].
  - exists (Attr 1 (skipn 8 (d_taddr4 o (1, 80)))). split; [apply O; vm_compute; reflexivity|split; vm_compute; reflexivity].
Qed.
Print Assumptions C82_client_safe_refuted.

(** The hypotheses are met *)
Example C82_fit_example : fit_entry (EPool4 1 0 0 1 (P4 3221225984 24) (61001, 65535)) /\
  fit_entry (EEam (P6 (2 ^ 125) 120) (P4 3221225984 24)) /\ fit_entry (EBib (2 ^ 125, 80) (3221225985, 8080) 0 true) /\
  fit_session (US (1, 2) (3, 4) (5, 6) (7, 8) 0 2 7200000).
Proof.
  unfold fit_entry, fit_session, wt_prefix6, wt_prefix4, fit_taddr6, fit_taddr4, is_u128, is_u32, is_u16, is_u8. cbn [us_src6 us_dst6 us_src4 us_dst4 us_proto us_state us_dying fst snd p6_addr p6_len p4_addr p4_len].
  repeat split; try lia; reflexivity.
Qed.
(** A small machine's EAM: the octets of the message *)
Example C82_octets_example :
  put_entry_u (Host false true) 4096 10 (EEam (P6 (32 * 256 ^ 15 + 1) 128) (P4 3221225985 32)) [] =
  Put [56;0; 10;128;  32;0; 1;128;  20;0; 1;0; 32;0;0;0;0;0;0;0;0;0;0;0;0;0;0;1;  5;0; 2;0; 128;0;0;0;
       20;0; 2;128;  8;0; 1;0; 192;0;2;1;  5;0; 2;0; 32;0;0;0].
Proof. vm_compute. reflexivity. Qed.
Example C82_full_example :
  put_entry_u (Host false true) 59 10 (EEam (P6 1 128) (P4 2 32)) [9; 9; 9; 9] = NoRoom [9; 9; 9; 9] /\
  exists x, put_entry_u (Host false true) 60 10 (EEam (P6 1 128) (P4 2 32)) [9; 9; 9; 9] = Put ([9; 9; 9; 9] ++ x).
Proof. split; [vm_compute; reflexivity|]. eexists. vm_compute. reflexivity. Qed.
(** A request with an address that is too short is rejected. *)
Example C82_short_example : jnla_get_prefix4_optional (Host false true) (Some (Attr 32769 [7;0;1;0;192;0;2;0; 5;0;2;0;32;0;0;0])) = Bad EINVAL.
Proof. vm_compute. reflexivity. Qed.
(** A pool4 entry without mark, iterations and flags *)
Definition bare_pool4 : attr := Attr 32769 (skipn 24 (d_pool4 (Host false true) flag_u 5 6 7 17 (P4 3221225984 24) (61001, 65535))).
Example C82_left_out_example : jnla_get_pool4 (Host false true) (Some bare_pool4) = Got (EPool4 0 0 0 17 (P4 3221225984 24) (61001, 65535)) /\
  lacks (Host false true) bare_pool4 JNLAP4_MARK.
Proof. split; [vm_compute; reflexivity|]. unfold lacks. apply Forall_forall. intros x X. vm_compute in X. repeat (destruct X as [<- | X]; [vm_compute; discriminate|]). destruct X. Qed.
