(** C83: requests that change one thing, from the client's function to the
    database and back, on octets. *)
Require Import Verif.Base Verif.Addr_Model Verif.Rtrie_Model Verif.Eam_Model Verif.Deny_Model Verif.Pool4_Model Verif.Bib_Model Verif.Glob_Model Verif.Inst_Model Verif.File_Model
  Verif.Nla_Model Verif.Nla_Spec Verif.Nla_Proofs Verif.Req_Model Verif.Req_Spec Verif.Req_Proofs.

(** ** A module with one instance, for the examples: the databases are those of the other files. *)
Record machine := Machine { m_eamt : eamt; m_deny : list prefix4; m_pool4 : pool4; m_udp : tb; m_globals : globals }.
Definition set_eamt s x := Machine x (m_deny s) (m_pool4 s) (m_udp s) (m_globals s).
Definition set_deny s x := Machine (m_eamt s) x (m_pool4 s) (m_udp s) (m_globals s).
Definition set_pool4 s x := Machine (m_eamt s) (m_deny s) x (m_udp s) (m_globals s).
Definition set_udp s x := Machine (m_eamt s) (m_deny s) (m_pool4 s) x (m_globals s).
Definition set_globals s x := Machine (m_eamt s) (m_deny s) (m_pool4 s) (m_udp s) x.
Definition done_ {A} (s : machine) (r : res (rc * A)) (f : A -> machine) : rc * machine := match r with Ok (r, a) => (r, f a) | _ => (Err EPERM, s) end.
Definition proto_of (q : Z) : proto := if q =? 0 then TCP else if q =? 1 then UDP else if q =? 2 then ICMP else OTHER.
Definition bib_found (r : res (option ((Z * Z) * (Z * Z) * bool))) : errno + (Z * Z) * (Z * Z) := match r with Ok (Some (a, b, _)) => inr (a, b) | _ => inl ESRCH end.
Definition demo : kernel machine unit := {|
  k_version := 67174400; k_siit := true; k_nat64 := true;
  k_find := fun n xt s => if list_eq_dec Z.eq_dec n INAME_DEFAULT then inr tt else inl ESRCH;
  k_eamt_add := fun _ p6 p4 f s => done_ s (eamt_add (m_eamt s) (Eam p6 p4) f (AMem true true true true true)) (set_eamt s);
  k_eamt_rm := fun _ p6 p4 s => done_ s (eamt_rm (m_eamt s) p6 p4 true true) (set_eamt s);
  k_eamt_flush := fun _ s => set_eamt s (eamt_flush (m_eamt s));
  k_deny_add := fun _ p f s => let (r, l) := denylist4_add (m_deny s) p f true in (r, set_deny s l);
  k_deny_rm := fun _ p s => let (r, l) := denylist4_rm (m_deny s) p in (r, set_deny s l);
  k_deny_flush := fun _ s => let (r, l) := denylist4_flush (m_deny s) true in (r, set_deny s l);
  k_pool4_add := fun _ e f s => match e with EPool4 m it g q (P4 a l) (lo, hi) => done_ s (pool4db_add (m_pool4 s) (PEntry m it g (proto_of q) (Rg a l lo hi)) None f []) (set_pool4 s) | _ => (Err EINVAL, s) end;
  k_pool4_rm := fun _ e s => match e with EPool4 m it g q (P4 a l) (lo, hi) => done_ s (pool4db_rm (m_pool4 s) m (proto_of q) (Rg a l lo hi) []) (set_pool4 s) | _ => (Err EINVAL, s) end;
  k_pool4_flush := fun _ s => set_pool4 s (pool4db_flush (m_pool4 s));
  k_pool4_contains := fun _ q a s => match pool4db_contains (m_pool4 s) [] (proto_of q) (fst a) (snd a) with Ok b => b | _ => false end;
  k_bib_add := fun _ e s => match e with EBib a6 a4 1 _ => match bib_add_static UDP (m_udp s) a6 a4 [] with Ok (r, t, _) => (r, set_udp s t) | _ => (Err EPERM, s) end | _ => (Err EINVAL, s) end;
  k_bib_find6 := fun _ q a s => bib_found (bib_find6 (m_udp s) a);
  k_bib_find4 := fun _ q a s => bib_found (bib_find4 (m_udp s) a);
  k_bib_rm := fun _ q a6 a4 s => match bib_rm (m_udp s) a6 a4 with Ok (r, t, _) => (r, set_udp s t) | _ => (Err EPERM, s) end;
  k_bib_rm_range := fun _ q p r s => match bib_rm_range (m_udp s) p (fst r) (snd r) with Ok (t, _) => set_udp s t | _ => s end;
  k_bib_flush := fun _ s => match flush_table (m_udp s) with Ok (t, _) => set_udp s t | _ => s end;
  k_globals := fun _ s => m_globals s;
  k_replace := fun _ g s => (OK, set_globals s g) |}.
Definition zeroes : globals := Globals (fun _ => 0) (C6 false (P6 0 0)) (Plateaus (repeat 0 64) 0) (C6 false (P6 0 0)) (C4 false (P4 0 0)).
Definition fresh_machine : machine := Machine eamt_alloc [] pool4db_alloc init_table (snd (globals_init zeroes XT_SIIT None)).

(** A little-endian machine with a recent Linux, clients of both types, and the module with a text in its error pool *)
Definition le : host := Host false true.
Definition siit : client := Client 67174403 XT_SIIT 4096 true.
Definition nat64 : client := Client 67174403 XT_NAT64 4096 true.
Definition answers : answering := Answering 3776 true [78; 111].
Definition p64 : prefix6 := P6 (42540766411282592856903984951653826560) 120. (* 2001:db8::/120 *)
Definition p24 : prefix4 := P4 3221225984 24. (* 192.0.2.0/24 *)

Ltac ok_command := vm_compute; repeat split; first [reflexivity | discriminate | lia | idtac].

Lemma normal_siit : normal demo siit answers.
Proof. constructor; [ok_command|left; split; reflexivity|split; reflexivity|cbn; lia|repeat constructor; lia]. Qed.
Lemma normal_nat64 : normal demo nat64 answers.
Proof. constructor; [ok_command|right; split; reflexivity|split; reflexivity|cbn; lia|repeat constructor; lia]. Qed.

(** ** What was asked is done, and its result is told. *)

(** In normal circumstances, each function of the library with arguments that fit has the effect of one call of the database's
    function on the instance of that name, and returns its result; whatever the order of octets of the machine and the
    version of Linux. There are two exceptions: removing from the EAMT by one of the two prefixes, and
    removing from pool4, without --quick, in vain. *)
Theorem C83_request_partial : forall h (S I : Type) (K : kernel S I) u w n c s,
  normal K u w -> fit_name n -> fit_command (u_xt u) c ->
  (forall p6 p4, c = EamtRm p6 p4 -> p6 <> None /\ p4 <> None) ->
  (forall m it g q p ports i, c = Pool4Rm (EPool4 m it g q p ports) false -> k_find K (name_of n) (u_xt u) s = inr i ->
     prefix4_validate p = OK /\ fst (k_pool4_rm K i (EPool4 m it g q p ports) s) = OK) ->
  request h K u w true n c s = let (r, s') := asked K (u_xt u) n c s in Got (told w r, s').
Proof.
  intros h S I K u w n c s N FN FC E P. apply whole; try assumption.
  intros i FI. destruct c as [p6 p4 f|p6 p4| |p f|p| |e f|e q|q|a6 a4 q|a6 a4 q|id v f]; try exact Logic.I.
  - apply E. reflexivity.
  - destruct e as [?|?|m it g pr p ports|?]; try exact Logic.I. destruct q; [exact Logic.I|]. apply P; [reflexivity|exact FI].
Qed.
Print Assumptions C83_request_partial.

(** What the user calls an instance has to be a name: otherwise nothing is sent, and nothing happens. *)
Theorem C83_names : forall h (S I : Type) (K : kernel S I) u w admin n c s, ~ fit_name n -> request h K u w admin n c s = Got (Unsent, s).
Proof.
  intros h S I K u w admin n c s F. unfold request, client_request. destruct (function_of h c) as [[o flags] f]. unfold joolnl_alloc_msg.
  assert (V : iname_validate_u n = false).
  { destruct n as [n|]; [|exfalso; apply F; exact Logic.I]. cbn [iname_validate_u]. apply andb_false_iff.
    destruct (Nat.ltb_spec (length n) 16) as [L|L]; [|left; reflexivity]. right.
    destruct (forallb _ n) eqn:E; [|reflexivity]. exfalso. apply F. split; [lia|]. apply Forall_forall. intros x X.
    rewrite forallb_forall in E. specialize (E x X). lia. }
  rewrite V. reflexivity.
Qed.
Print Assumptions C83_names.
Example bad_names : ~ fit_name (Some (repeat 97 16)) /\ ~ fit_name (Some [97; 10]).
Proof. split; intros [L F]; [cbn in L; lia|]. rewrite Forall_forall in F. specialize (F 10 (or_intror (or_introl eq_refl))). lia. Qed.

(** Commands on the fresh module: what is told, and what is in the databases then *)
Definition run_all (h : host) (K : kernel machine unit) (u : client) (cs : list command) (s : machine) : list outcome * machine :=
  fold_left (fun '(os, s) c => match request h K u answers true None c s with Got (o, s) => (os ++ [o], s) | _ => (os ++ [Nonsense], s) end) cs ([], s).
Example C83_request_nontrivial : normal demo siit answers /\ fit_name None /\ fit_command (u_xt siit) (EamtAdd p64 p24 true) /\
  (exists s', request le demo siit answers true None (EamtAdd p64 p24 true) fresh_machine = Got (Success, s') /\ ecount (m_eamt s') = 1) /\
  (* twice: it is there already (EEXIST) *)
  fst (run_all le demo siit [EamtAdd p64 p24 true; EamtAdd p64 p24 true] fresh_machine) = [Success; Refused 17 [78; 111]] /\
  (* the denylist; an instance that does not exist (ESRCH); a command about another type of instances (EINVAL); MTU plateaus *)
  m_deny (snd (run_all (Host true false) demo siit [DenyAdd p24 false; DenyAdd (P4 0 8) true; DenyRm p24] fresh_machine)) = [P4 0 8] /\
  request le demo siit answers true (Some [97; 98]) EamtFlush fresh_machine = Got (Refused 3 [78; 111], fresh_machine) /\
  fst (run_all le demo siit [Pool4Flush false] fresh_machine) = [Refused 22 [78; 111]] /\
  firstn 3 (values (plateaus (m_globals (snd (run_all le demo siit [GlobalUpdate JNLAG_PLATEAUS (VPlateaus [1500; 9000]) false] fresh_machine))))) = [9000; 1500; 17914].
Proof.
  split; [exact normal_siit|]. split; [exact Logic.I|]. split; [ok_command|].
  split; [eexists; split; vm_compute; reflexivity|]. repeat (split; [vm_compute; reflexivity|]). vm_compute. reflexivity.
Qed.

(** ** Removing from the EAMT by one prefix *)

(** `jool_siit eamt remove` takes one prefix or both (src/usr/argp/wargp/eamt.c:202-216), and so do joolnl_eamt_rm() and eamt_rm().
    With one, the library writes an attribute that says "no prefix" for the other; handle_eamt_rm() wants a prefix in it. So it is always refused, with "invalid argument". *)
Theorem C83_eamt_rm_one_prefix : forall h (S I : Type) (K : kernel S I) u w n p6 p4 s i,
  normal K u w -> fit_name n -> u_xt u = XT_SIIT -> k_find K (name_of n) XT_SIIT s = inr i ->
  fit_opt wt_prefix6 p6 -> fit_opt wt_prefix4 p4 -> p6 = None \/ p4 = None ->
  request h K u w true n (EamtRm p6 p4) s = Got (told w (Err EINVAL), s).
Proof. intros. eapply whole_one; eassumption. Qed.
Print Assumptions C83_eamt_rm_one_prefix.

(** It does not do what was asked: the entry is there, and the database would remove it. *)
Theorem C83_eamt_rm_one_prefix_refuted : exists h K u w n c (s : machine),
  @normal machine unit K u w /\ fit_name n /\ fit_command (u_xt u) c /\
  (exists s', asked K (u_xt u) n c s = (OK, s') /\ ecount (m_eamt s') = 0 /\ ecount (m_eamt s) = 1) /\
  request h K u w true n c s = Got (Refused 22 [78; 111], s).
Proof.
  exists le, demo, siit, answers, None, (EamtRm None (Some p24)), (snd (run_all le demo siit [EamtAdd p64 p24 true] fresh_machine)).
  split; [exact normal_siit|]. split; [exact Logic.I|]. split; [ok_command|].
  split; [eexists; split; [vm_compute; reflexivity|split; vm_compute; reflexivity]|]. vm_compute. reflexivity.
Qed.
Print Assumptions C83_eamt_rm_one_prefix_refuted.

(** ** Removing from pool4, and failing *)

(** `jool pool4 remove 192.0.2.1/24 ...` is refused, since the prefix has a suffix; pool4 stays the same. But the BIB entry (a static one) of that address is gone. *)
Definition with_pool4 : machine :=
  snd (run_all le demo nat64 [Pool4Add (EPool4 0 0 0 1 (P4 3221225985 32) (1000, 2000)) true; BibAdd (1, 53) (3221225985, 1053) 1] fresh_machine).
Theorem C83_pool4_rm_drops_bib_refuted : exists h K u w n c (s s' : machine),
  @normal machine unit K u w /\ fit_name n /\ fit_command (u_xt u) c /\
  asked K (u_xt u) n c s = (Err EINVAL, s) /\
  request h K u w true n c s = Got (Refused 22 [78; 111], s') /\
  m_pool4 s' = m_pool4 s /\ n_bibs (m_udp s) = 1 /\ n_bibs (m_udp s') = 0.
Proof.
  exists le, demo, nat64, answers, None, (Pool4Rm (EPool4 0 0 0 1 (P4 3221225985 24) (0, 65535)) false), with_pool4.
  eexists. split; [exact normal_nat64|]. split; [exact Logic.I|]. split; [ok_command|]. repeat (split; [vm_compute; reflexivity|]). vm_compute. reflexivity.
Qed.
Print Assumptions C83_pool4_rm_drops_bib_refuted.

(** The BIB is even searched with a prefix that was refused for being longer than an address: prefix4_contains() shifts by a negative number then
    (src/mod/common/address.c:77-80). [K]: a module that counts such calls. *)
Definition counts : kernel Z unit := {|
  k_version := 67174400; k_siit := false; k_nat64 := true; k_find := fun _ _ _ => inr tt;
  k_eamt_add := fun _ _ _ _ s => (OK, s); k_eamt_rm := fun _ _ _ s => (OK, s); k_eamt_flush := fun _ s => s;
  k_deny_add := fun _ _ _ s => (OK, s); k_deny_rm := fun _ _ s => (OK, s); k_deny_flush := fun _ s => (OK, s);
  k_pool4_add := fun _ _ _ s => (OK, s);
  k_pool4_rm := fun _ e s => match e with EPool4 _ _ _ _ p _ => (prefix4_validate p, s) | _ => (OK, s) end;
  k_pool4_flush := fun _ s => s; k_pool4_contains := fun _ _ _ _ => true;
  k_bib_add := fun _ _ s => (OK, s); k_bib_find6 := fun _ _ _ _ => inl ESRCH; k_bib_find4 := fun _ _ _ _ => inl ESRCH; k_bib_rm := fun _ _ _ _ s => (OK, s);
  k_bib_rm_range := fun _ _ p _ s => if 32 <? p4_len p then s + 1 else s; k_bib_flush := fun _ s => s;
  k_globals := fun _ _ => zeroes; k_replace := fun _ _ s => (OK, s) |}.
Theorem C83_pool4_rm_long_prefix_refuted : exists h c, fit_command XT_NAT64 c /\ request h counts nat64 answers true None c 0 = Got (Refused 22 [78; 111], 1).
Proof. exists le, (Pool4Rm (EPool4 0 0 0 1 (P4 1 200) (0, 65535)) false). split; [ok_command|]. vm_compute. reflexivity. Qed.
Print Assumptions C83_pool4_rm_long_prefix_refuted.

(** ** Only proper requests change anything. *)

(** Whatever the octets of a request are: if it changes anything, then its sender is a network administrator, it starts with Jool's magic, is of the
    module's version (the first two numbers), names a type of instances that is loaded and that the operation is about, and an instance of that type and name was found. *)
Theorem C83_only_proper : forall h (S I : Type) (K : kernel S I) admin o b s r s',
  serve h K admin o b s = Got (r, s') -> s' <> s ->
  admin = true /\ firstn 4 b = [106; 111; 111; 108] /\ hdr_version b / 2 ^ 16 = k_version K / 2 ^ 16 /\
  (hdr_xt b = XT_SIIT /\ k_siit K = true /\ op_about o <> XT_NAT64 \/ hdr_xt b = XT_NAT64 /\ k_nat64 K = true /\ op_about o <> XT_SIIT) /\
  exists i, k_find K (match cstring (hdr_iname b) with [] => INAME_DEFAULT | n => n end) (hdr_xt b) s = inr i.
Proof.
  intros h S I K admin o b s r s' H D. unfold serve in H. destruct (zlen b <? 28); [discriminate H|].
  destruct (nla_parse_k h JNLAR_MAX jool_policy (skipn 28 b)) as [t|e|]; try discriminate H. cbn [rbind] in H.
  assert (A : fst (handler_of h K o) = op_about o) by (destruct o; reflexivity).
  destruct (handler_of h K o) as [xt f]. cbn [fst] in A. subst xt.
  destruct (request_handle_start K admin b (op_about o) s) as [e|i] eqn:R; [injection H as _ H; symmetry in H; contradiction|].
  unfold request_handle_start in R.
  destruct admin; [|discriminate R]. cbn [negb] in R.
  destruct (validate_magic b) eqn:M; [|discriminate R]. destruct (validate_stateness K b) eqn:T; [|discriminate R].
  destruct (validate_version K b) eqn:V; [|discriminate R]. destruct (bit_and (hdr_xt b) (op_about o)) eqn:B; [|discriminate R]. cbn [negb] in R.
  split; [reflexivity|]. split; [unfold validate_magic, hdr_magic in M; destruct (list_eq_dec Z.eq_dec (firstn 4 b) JOOLNL_HDR_MAGIC); [assumption|discriminate M]|].
  split; [unfold validate_version, same_version in V; change (2 ^ 16) with 65536; lia|].
  split; [|exists i; exact R].
  unfold validate_stateness in T. destruct (hdr_xt b =? XT_SIIT) eqn:X1.
  - left. assert (X : hdr_xt b = XT_SIIT) by lia. split; [exact X|]. split; [exact T|]. intros O. rewrite X, O in B. discriminate B.
  - destruct (hdr_xt b =? XT_NAT64) eqn:X2; [|discriminate T]. right. assert (X : hdr_xt b = XT_NAT64) by lia. split; [exact X|]. split; [exact T|].
    intros O. rewrite X, O in B. discriminate B.
Qed.
Print Assumptions C83_only_proper.
Definition deny_request : list Z := match client_request le siit None (DenyAdd p24 false) with Some (_, b) => b | None => [] end.
Example C83_only_proper_nontrivial :
  (exists s', serve le demo true JNLOP_BL4_ADD deny_request fresh_machine = Got (OK, s') /\ m_deny s' = [p24]) /\
  serve le demo false JNLOP_BL4_ADD deny_request fresh_machine = Got (Err EPERM, fresh_machine) /\
  serve le demo true JNLOP_BL4_ADD (107 :: tl deny_request) fresh_machine = Got (Err EINVAL, fresh_machine).
Proof. split; [eexists; split; vm_compute; reflexivity|]. split; vm_compute; reflexivity. Qed.

(** ** Any octets *)

(** Whatever the octets of a request are, it is refused and changes nothing, or it amounts to one call, with arguments that fit their types, on the instance of its name and type. [Bad] is Linux's refusal.
    (Settings: since Linux 5.2; see C82_module_safe_plateaus_refuted.) *)
Theorem C83_any_octets_partial : forall h (S I : Type) (K : kernel S I) admin o b s r s',
  Forall is_u8 b -> (o = JNLOP_GLOBAL_UPDATE -> h_strict h = true) ->
  serve h K admin o b s = Got (r, s') -> refused_or_obeyed K o b s (r, s').
Proof. intros h S I K admin o b s r s' B G H. pose proof (serve_any h K admin o b s B G) as Y. rewrite H in Y. exact Y. Qed.
Print Assumptions C83_any_octets_partial.
(** And it does not make the module read what is not there, except for removals from the BIB. *)
Theorem C83_no_stray_partial : forall h (S I : Type) (K : kernel S I) admin o b s,
  Forall is_u8 b -> (o = JNLOP_GLOBAL_UPDATE -> h_strict h = true) -> o <> JNLOP_BIB_RM -> serve h K admin o b s <> Stray.
Proof. intros h S I K admin o b s B G N H. pose proof (serve_any h K admin o b s B G) as Y. rewrite H in Y. exact (N Y). Qed.
Print Assumptions C83_no_stray_partial.
Example C83_any_octets_nontrivial : Forall is_u8 deny_request /\
  (exists s', serve le demo true JNLOP_BL4_ADD deny_request fresh_machine = Got (OK, s')) /\
  (* cut short; with an attribute of another length *)
  serve le demo true JNLOP_BL4_ADD (firstn 30 deny_request) fresh_machine = Bad EINVAL /\
  serve le demo true JNLOP_BL4_ADD (firstn 28 deny_request) fresh_machine = Got (Err EINVAL, fresh_machine).
Proof.
  split; [vm_compute; repeat (constructor; [split; [intro X; discriminate X | reflexivity]|]); constructor|].
  split; [eexists; vm_compute; reflexivity|]. split; vm_compute; reflexivity.
Qed.
(** A request to remove from the BIB that does not name a protocol makes the module use a variable that was never initialized (src/mod/common/nl/bib.c:134-142). *)
Definition no_protocol : list Z :=
  match joolnl_alloc_msg nat64 None 0 with
  | Some b => match nest_u le 4096 JNLAR_OPERAND (nla_put_taddr6 le 4096 JNLAB_SRC6 (1, 53)) b with Put b => b | _ => [] end
  | None => []
  end.
Theorem C83_bib_rm_uninitialized_refuted : exists h K b (s : machine), Forall is_u8 b /\ @serve h machine unit K true JNLOP_BIB_RM b s = Stray.
Proof.
  exists le, demo, no_protocol, fresh_machine.
  split; [vm_compute; repeat (constructor; [split; [intro X; discriminate X | reflexivity]|]); constructor|]. vm_compute. reflexivity.
Qed.
Print Assumptions C83_bib_rm_uninitialized_refuted.
