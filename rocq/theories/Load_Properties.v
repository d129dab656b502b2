(** C81: configuration files, from the text to the instance. *)
Require Import Verif.Base Verif.Addr_Model Verif.Glob_Model Verif.Glob_Properties Verif.Inst_Model Verif.Inst_Spec Verif.Inst_Proofs Verif.Inst_Properties Verif.Str_Model Verif.Json_Model Verif.Json_Spec Verif.Json_Proofs Verif.File_Model Verif.File_Spec Verif.File_Objects Verif.File_Proofs Verif.File_Top Verif.File_Properties Verif.Load_Model Verif.Load_Spec Verif.Load_Proofs Verif.Load_Switch Verif.Load_Works.
Require Import String Ascii Permutation.
Local Open Scope Z_scope.
Local Open Scope list_scope.

Section Load.
Context {D : Type} (W : databases D File_Model.entry) (H : hashed W).

Lemma sections_fillable R xt l ss : sections R xt l ss -> fillables ss.
Proof.
  induction 1 as [|n v l ss C L IH|n v l ss gs C G L IH|n v l ss t k P js es I C Ev F L IH]; [constructor|exact IH|constructor; [exact Logic.I|exact IH]|].
  constructor; [|exact IH]. unfold lists in I. destruct (xt =? 1); [|destruct (xt =? 2); [|destruct I]]; cbn [In] in I; unfold fillable; intuition congruence.
Qed.
Lemma framework_ok_value v fw : text framework v fw -> fw = 4 \/ fw = 8.
Proof. intros (s & _ & [[_ ->]|[_ ->]]); auto. Qed.

(** The kernel has the instance [x] with the settings and databases that the file says:
    the defaults, and then the sections [ss].  [s]: before the last message; [s']: after it *)
Definition configured (ns : Z) (mem : globals) (xt : Z) (n : name) (fw : Z) (force : bool) (ss : list File_Spec.section) (s s' : state D) : Prop :=
  exists x g0 f, x_ns x = ns /\ x_name x = n /\ x_flags x = Z.lor fw xt /\ globals_init mem xt None = (OK, g0) /\
    applied W force ss (with_glob x g0) (db_new W) x f /\ replaced x s s' /\
    forall y k o, In y (instances s') -> database k y = Some o -> database k x = Some o -> contents s' o = Some (f k).

(** Full statement: if the client says that the upload has succeeded, then the file
    describes a configuration, and the kernel has the instance with that configuration.
    It is false for fractions and marks (C80_fraction_refuted, C80_mark_refuted), and the BIB
    of a NAT64 that exists stays (C43_bib_refuted).  What holds, whatever else happens
    in the kernel between the messages: the file describes a configuration as it is read;
    the instance was created or replaced; its settings are the defaults, changed by the file's, in order;
    and its databases are empty ones to which the file's entries were added, in order. *)
Theorem C81_success_partial : forall U S ns pid xt force arg t w, xt = 1 \/ xt = 2 -> u_ctrl U = true -> u_kernel U = answer W S -> alone W ns pid S ->
  joolnl_file_parse U xt force arg t = Some (None, w) ->
  exists v n fw ss, cJSON_Parse (t ++ [0]) = POk v /\ file_means (as_read (u_inet U)) xt arg v n fw ss /\
    configured ns (e_mem (circ S 0)) xt n fw force ss (found W S (removelast (sent w))) (reached W S (sent w)).
Proof.
  intros U S ns pid xt force arg t w X C K A E. destruct (C80_success_partial U xt force arg t w X C E) as (v & n & fw & ss & ms & E1 & E2 & E3 & E4).
  destruct (C80_order U xt force arg t None w X C E) as [[F _]|(n' & fw' & ms' & fin & Ew & Gn & Fw & _ & Fin & Acc & [Ok _])]; [exfalso; apply F; reflexivity|].
  destruct (Ok eq_refl) as [-> Last]. rewrite Ew in E4. injection E4 as En Ef Em. subst n' fw'. apply app_inj_tail in Em as [-> _]. clear Ok Fin.
  assert (Ans : forall p q, sent w = p ++ q -> p <> [] -> answer W S p = OK).
  { intros p q Es Np. rewrite <- K. destruct q as [|m q]; [rewrite app_nil_r in Es; rewrite <- Es; exact Last|]. apply (Acc p (m :: q) Es Np). discriminate. }
  exists v, n, fw, ss. split; [exact E1|]. split; [exact E2|].
  destruct (begin_stage W H S ns pid A xt n fw) as (x0 & St0 & Fl & Gi). { apply (Ans _ (ms ++ [ends xt n])); [exact Ew|discriminate]. }
  destruct E2 as (l & -> & _ & _ & _ & _ & _ & Sec). apply sections_fillable in Sec.
  destruct (own_sections W H S ns pid A xt n force ss ms E3 Sec _ _ _ St0) as (x & f & Ap & St). { intros a b Es Na. apply (Ans _ (b ++ [ends xt n])); [rewrite Ew, Es, <- !app_assoc; reflexivity|discriminate]. }
  destruct (end_stage W H S ns pid A xt n _ x f St) as [Rp Hd]. { apply (Ans _ []); [rewrite Ew, app_nil_r; reflexivity|discriminate]. }
  assert (Er : removelast (sent w) = [begins xt n fw] ++ ms). { rewrite Ew. change (begins xt n fw :: ms ++ [ends xt n]) with ((begins xt n fw :: ms) ++ [ends xt n]). apply removelast_last. }
  pose proof (applied_key W _ _ _ _ _ _ Ap) as Ek. assert (Fx : x_flags x = Z.lor fw xt) by (rewrite Ek in Fl; exact Fl).
  exists x, (x_glob x0), f. split; [apply St|]. split; [apply St|]. split; [exact Fx|].
  split. { unfold type_of in Gi. rewrite Fl, (Load_Proofs.lor_type fw xt Fw X) in Gi. exact Gi. }
  split; [rewrite <- Ek; exact Ap|]. rewrite Er, Ew. split; [exact Rp|]. exact Hd.
Qed.

Lemma means_unique U xt arg v n fw ss n' fw' ss' : file_means (as_read (u_inet U)) xt arg v n fw ss -> file_means (as_read (u_inet U)) xt arg v n' fw' ss' -> n = n' /\ fw = fw' /\ ss = ss'.
Proof.
  intros (l & -> & _ & (v1 & A1 & A2) & _ & _ & (v2 & B1 & B2) & S) (l' & [= <-] & _ & (v1' & A1' & A2') & _ & _ & (v2' & B1' & B2') & S').
  rewrite (has_unique _ _ _ _ A1' A1) in A2'. rewrite (has_unique _ _ _ _ B1' B1) in B2'. split.
  - destruct A2 as (s & -> & ->), A2' as (s' & [= <-] & ->). reflexivity.
  - split; [exact (framework_unique _ _ _ B2 B2')|exact (sections_unique U xt _ _ _ S S')].
Qed.

(** The same, for a text of RFC 8259 that describes a configuration exactly *)
Theorem C81_success : forall U S ns pid xt force arg t w v n fw ss, xt = 1 \/ xt = 2 -> u_ctrl U = true -> u_kernel U = answer W S -> alone W ns pid S ->
  json_text v t -> file_means (exactly (u_inet U)) xt arg v n fw ss -> joolnl_file_parse U xt force arg t = Some (None, w) ->
  configured ns (e_mem (circ S 0)) xt n fw force ss (found W S (removelast (sent w))) (reached W S (sent w)).
Proof.
  intros U S ns pid xt force arg t w v n fw ss X C K A Ht Hm E. destruct (C81_success_partial U S ns pid xt force arg t w X C K A E) as (v' & n' & fw' & ss' & E1 & E2 & E3).
  rewrite (text_ok _ _ Ht) in E1. injection E1 as <-. apply exactly_as_read in Hm. destruct (means_unique _ _ _ _ _ _ _ _ _ _ Hm E2) as (-> & -> & ->). exact E3.
Qed.

(** Until then, and if the client says that it has failed, no message changes anything
    that is in use, whatever the file is. *)
Theorem C81_unchanged : forall U S xt force arg t r w, xt = 1 \/ xt = 2 -> u_ctrl U = true -> u_kernel U = answer W S ->
  joolnl_file_parse U xt force arg t = Some (r, w) ->
  forall p m q, sent w = p ++ m :: q -> q <> [] \/ r <> None -> untouched (found W S p) (reached W S (p ++ [m])).
Proof.
  intros U S xt force arg t r w X C K E p m q Es Hq. rewrite reached_snoc.
  assert (N : answer W S (p ++ [m]) <> OK \/ m_end m = false).
  { destruct (C80_order U xt force arg t r w X C E) as [[_ F]|(n & fw & ms & fin & Ew & _ & _ & Mid & Fin & _ & Ok)]; [rewrite F in Es; destruct p; discriminate|].
    destruct q as [|m' q].
    - destruct Hq as [F|Nr]; [exfalso; apply F; reflexivity|]. destruct Fin as [->| ->].
      + right. rewrite app_nil_r in Ew. rewrite Ew in Es. assert (I : In m (begins xt n fw :: ms)) by (rewrite Es; apply in_or_app; right; left; reflexivity).
        destruct I as [<-|I]; [reflexivity|]. rewrite Forall_forall in Mid. apply (Mid m I).
      + left. intros An. apply Nr, Ok. split; [reflexivity|]. rewrite K, Es. exact An.
    - right. assert (I : In m (begins xt n fw :: ms)).
      { rewrite Ew in Es. destruct Fin as [->| ->].
        - rewrite app_nil_r in Es. rewrite Es. apply in_or_app; right; left; reflexivity.
        - destruct (exists_last (l := m' :: q)) as (q' & z & Eq); [discriminate|]. rewrite Eq in Es. change (begins xt n fw :: ms ++ [ends xt n]) with ((begins xt n fw :: ms) ++ [ends xt n]) in Es.
          change (p ++ m :: q' ++ [z]) with (p ++ (m :: q') ++ [z]) in Es. rewrite app_assoc in Es. apply app_inj_tail in Es as [Es _]. rewrite Es. apply in_or_app; right; left; reflexivity. }
      destruct I as [<-|I]; [reflexivity|]. rewrite Forall_forall in Mid. apply (Mid m I). }
  rewrite answer_snoc in N. rewrite found_run in N |- *. pose proof (C43_unchanged W H (past S ++ history S 0 p ++ meanwhile S (List.length p)) (circ S (List.length p)) m) as P. cbv zeta in P.
  destruct (step W _ (Atomic (circ S (List.length p)) m)) as [r' s']. cbn [fst snd] in *. exact (P N).
Qed.

Lemma sections_suited R xt l ss : sections R xt l ss -> suited xt ss.
Proof.
  induction 1 as [|n v l ss C L IH|n v l ss gs C G L IH|n v l ss t k P js es I C Ev F L IH]; [constructor|exact IH|constructor; [exact Logic.I|exact IH]|].
  constructor; [|exact IH]. unfold lists in I. unfold suits. destruct (Z.eqb_spec xt 1) as [X|X]; [|destruct (Z.eqb_spec xt 2) as [X2|X2]; [|destruct I]]; cbn [In] in I; [left|right]; (split; [assumption|]); intuition congruence.
Qed.
Lemma middle_ends xt n force ss ms : transmits xt n force ss ms -> Forall (fun m => m_end m = false) ms.
Proof.
  induction 1 as [|gs ss ms _ IH|k chunks ss ms _ _ IH]; [constructor|constructor; [reflexivity|exact IH]|]. apply Forall_app. split; [|exact IH]. apply Forall_forall. intros m I. apply in_map_iff in I as (c & <- & _). destruct k; reflexivity.
Qed.

(** Any valid configuration can be uploaded: a text that describes one exactly is
    accepted by the client and by the kernel, and the kernel then has it. *)
Theorem C81_works : forall U S ns pid xt force arg t v n fw ss, xt = 1 \/ xt = 2 -> roomy U -> u_kernel U = answer W S -> alone W ns pid S -> prompt S -> able S ->
  json_text v t -> file_means (exactly (u_inet U)) xt arg v n fw ss -> acceptable W S ns xt n fw force ss ->
  exists w, joolnl_file_parse U xt force arg t = Some (None, w) /\
    configured ns (e_mem (circ S 0)) xt n fw force ss (found W S (removelast (sent w))) (reached W S (sent w)).
Proof.
  intros U S ns pid xt force arg t v n fw ss X Ro K A Pr Ab Ht Hm Acc.
  assert (G0 : generous (with_kernel U (fun _ => OK))). { destruct Ro as (R1 & R2 & R3 & R4 & R5). repeat (split; [assumption|]). intros ms. reflexivity. }
  destruct (C80_accepts (with_kernel U (fun _ => OK)) xt force arg t v n fw ss X G0 Ht Hm) as (w & ms & E0 & Tr & Es).
  assert (Hf : fw = 4 \/ fw = 8) by (destruct Hm as (l & _ & _ & _ & _ & _ & (vf & _ & F) & _); exact (framework_ok_value _ _ F)).
  assert (Vn : valid_name n) by (destruct Hm as (l & _ & _ & _ & G & _); exact G).
  assert (Su : suited xt ss) by (destruct Hm as (l & _ & _ & _ & _ & _ & _ & Sec); exact (sections_suited _ _ _ _ Sec)).
  assert (Ok0 := begins_ok W H S n Vn xt X fw Hf (proj1 (Ab 0%nat))).
  destruct (begin_stage W H S ns pid A xt n fw Ok0) as (x0 & St0 & Fl & Gi).
  assert (Ty0 : type_of x0 = xt) by (unfold type_of; rewrite Fl; apply Load_Proofs.lor_type; assumption). rewrite Ty0 in Gi.
  destruct (Acc x0) as (x & f & Ap & V2 & Old); [apply St0|apply St0|exact Fl|exact Gi|].
  assert (T0 : there W S ns pid n [begins xt n fw]). { change [begins xt n fw] with ([] ++ [begins xt n fw]). apply there_last; auto. }
  destruct (sections_ok W H S ns pid A Pr n Vn xt X force ss ms Tr Su [begins xt n fw] x0 (db_new W) x f ltac:(discriminate) St0 T0 Ty0 Ap) as (I1 & St & T).
  pose proof (applied_key W _ _ _ _ _ _ Ap) as Ek. assert (Fx : x_flags x = Z.lor fw xt) by (rewrite Ek in Fl; exact Fl).
  assert (Ty : type_of x = xt) by (unfold type_of; rewrite Fx; apply Load_Proofs.lor_type; assumption).
  assert (Fr : framework_of x = fw / 4) by (unfold framework_of; rewrite Fx; destruct X as [->| ->], Hf as [->| ->]; reflexivity).
  assert (Okn : answer W S (([begins xt n fw] ++ ms) ++ [ends xt n]) = OK).
  { apply (ends_ok W H S ns pid A Pr n Vn xt X ([begins xt n fw] ++ ms) x f ltac:(discriminate) St T); [apply Ab|apply Ab|rewrite Ty; exact V2|].
    intros y Iy Ey. assert (Kx : key x = (ns, xt, n)). { destruct St as (_ & N1 & N2 & _). unfold key. rewrite N1, N2, Ty. reflexivity. }
    rewrite Fr, Ty. apply (Old ([begins xt n fw] ++ ms)); [constructor; [reflexivity|exact (middle_ends _ _ _ _ _ Tr)]|exact Iy|rewrite Ey; exact Kx]. }
  assert (EU : U = with_kernel U (answer W S)) by (destruct U; cbn in K; rewrite K; reflexivity).
  assert (E : joolnl_file_parse U xt force arg t = Some (None, w)).
  { unfold joolnl_file_parse in E0 |- *. rewrite (text_ok _ _ Ht) in E0 |- *. f_equal. rewrite EU. apply do_parsing_switch; [exact X|congruence|]. rewrite Es. intros p q Ep Np.
    destruct q as [|z q] using rev_ind; [rewrite app_nil_r in Ep; rewrite <- Ep; exact Okn|]. change (begins xt n fw :: ms ++ [ends xt n]) with ((begins xt n fw :: ms) ++ [ends xt n]) in Ep.
    rewrite app_assoc in Ep. apply app_inj_tail in Ep as [Ep _]. destruct p as [|y p]; [contradiction|]. injection Ep as <- Ep. destruct p as [|y p]; [exact Ok0|]. apply (I1 (y :: p) q Ep). discriminate. }
  exists w. split; [exact E|]. eapply C81_success; try eassumption. apply Ro.
Qed.

(** The instances stay the same while nothing but clients' requests and uploads
    that do not end occur. *)
Definition quiet (o : op (D := D) (E := File_Model.entry)) : Prop :=
  match o with Atomic _ m => m_end m = false | Find _ _ _ | Packet _ | Touch _ _ _ | Put _ => True | _ => False end.
Lemma get_table x (s : state D) : table (xlator_get x s) = table s.
Proof. unfold xlator_get, kref_get_ptr, kref_get. destruct (x_dbs x) as [a b|p [b|] [j|]]; repeat (match goal with |- context [match ?t with _ => _ end] => destruct t end); reflexivity. Qed.
Lemma put_table x (s : state D) : table (xlator_put x s) = table s.
Proof. unfold xlator_put, kref_put. destruct (x_dbs x) as [a b|p [b|] [j|]]; repeat (match goal with |- context [match objs ?s ?o with _ => _ end] => destruct (objs s o) as [[? ?]|] end); reflexivity. Qed.
Lemma quiet_step l o : quiet o -> table (snd (step W (run W init l) o)) = table (run W init l).
Proof.
  intros Q. destruct o as [| | | | |e m|ns fl nm|ns|k o d|k]; try (exfalso; exact Q).
  - pose proof (C43_unchanged W H l e m) as P. cbv zeta in P. destruct (step W (run W init l) (Atomic e m)) as [r s']. apply P. right. exact Q.
  - cbn [step]. destruct (xlator_find W (run W init l) ns fl nm) as [[|] [i|]]; try reflexivity. cbn [snd]. unfold hold. cbn [table with_held]. apply get_table.
  - cbn [step]. destruct (xlator_find_netfilter (run W init l) ns) as [i|]; [|reflexivity]. cbn [snd]. unfold hold. cbn [table with_held]. apply get_table.
  - cbn [step]. destruct (nth_error _ k) as [x|]; [|reflexivity]. destruct (existsb _ _); [|reflexivity]. destruct (objs (run W init l) o) as [[? ?]|]; reflexivity.
  - cbn [step]. destruct (nth_error _ k) as [x|]; [|reflexivity]. cbn [snd]. rewrite put_table. reflexivity.
Qed.
Lemma quiet_run : forall os l, Forall quiet os -> table (run W (run W init l) os) = table (run W init l).
Proof.
  induction os as [|o os IH]; intros l F; [reflexivity|]. inversion F as [|? ? F1 F2]; subst. cbn [run]. assert (X := IH (l ++ [o]) F2). rewrite run_app in X. cbn [run] in X. rewrite X. apply quiet_step. exact F1.
Qed.
Lemma quiet_found S : (forall i, Forall quiet (meanwhile S i)) -> forall ms, Forall (fun m => m_end m = false) ms -> instances (found W S ms) = instances (run W init (past S)).
Proof.
  intros Q ms F. unfold instances. rewrite found_run, run_app. rewrite (quiet_run (history S 0 ms ++ meanwhile S (List.length ms)) (past S)); [reflexivity|]. apply Forall_app. split; [|apply Q].
  generalize 0%nat. induction F as [|m ms Fm F IH]; intros i; cbn [history]; [constructor|]. apply Forall_app. split; [apply Q|]. constructor; [exact Fm|apply IH].
Qed.
End Load.
Print Assumptions C81_success_partial.
Print Assumptions C81_success.
Print Assumptions C81_unchanged.
Print Assumptions C81_works.

(** ** An example *)

(** Databases that are lists without repetitions *)
Lemma entry_dec : forall a b : File_Model.entry, {a = b} + {a <> b}.
Proof. repeat decide equality. Defined.
Definition lists0 : databases (list File_Model.entry) File_Model.entry :=
  DB _ _ (fun _ => []) (fun _ _ _ en d => if in_dec entry_dec en d then (Err EEXIST, d) else (OK, d ++ [en])) (fun _ _ _ => true) (fun _ _ _ => 3%nat).
Lemma lists0_hashed : hashed lists0. Proof. intros ns xt n. cbn. lia. Qed.
(** There is an instance [i] in iptables; between the client's messages, somebody uses it
    and somebody else uploads another. *)
Definition env0 (pid : Z) : env := Env 5 pid 100 2000 (fun _ => true) OK memory.
Definition situation0 : situation (D := list File_Model.entry) :=
  Sit [Add (env0 1) 1 8 (txt "i") None; Add (env0 1) 1 4 (txt "n") None; Atomic (env0 2) (begins 1 (txt "i") 4)]
      (fun i => [Find 5 (8 + 1) (txt "i"); Atomic (env0 2) (carries 1 (txt "i") false Eamt [EEam (P6 1 2) (P4 3 4)]); Put 0])
      (fun _ => env0 10).
Definition uenv0 : uenv := UEnv inet0 true (fun l _ => match l with [] => true | _ => false end) (fun _ _ => true) true (fun _ => true) (answer lists0 situation0).
Lemma acceptable0 : acceptable lists0 situation0 5 1 (txt "i") 8 true sections0.
Proof.
  intros [ns n fl g st db] E1 E2 E3 E4. cbn [x_ns x_name x_flags x_glob] in *. subst ns n fl. cbn [circ situation0 env0 e_mem] in E4.
  destruct (globals_init memory 1 None) as [r g'] eqn:Eg. injection E4 as -> ->. eexists _, _. split; [|split; [discriminate|]].
  - unfold sections0. eapply ap_settings; [discriminate| |].
    + cbn [x_glob]. apply (f_equal snd) in Eg. cbn [snd] in Eg. rewrite <- Eg. vm_compute. reflexivity.
    + eapply ap_entries; [vm_compute; reflexivity|apply ap_nil].
  - intros ms y F I Ky. rewrite (quiet_found lists0 lists0_hashed) in I; [| |exact F].
    + assert (C : Forall (fun y => key y = (5, 1, txt "i") -> framework_of y = 2) (instances (run lists0 init (past situation0)))) by (vm_compute; repeat constructor; intros Q; try reflexivity; discriminate Q).
      rewrite Forall_forall in C. split; [exact (C y I Ky)|discriminate].
    + intros i. repeat constructor.
Qed.
Example C81_example : exists w, hashed lists0 /\ roomy uenv0 /\ alone lists0 5 10 situation0 /\ prompt situation0 /\ able situation0 /\
  json_text value0 file0 /\ file_means (exactly (u_inet uenv0)) 1 (Some (txt "i")) value0 (txt "i") 8 sections0 /\ acceptable lists0 situation0 5 1 (txt "i") 8 true sections0 /\
  joolnl_file_parse uenv0 1 true (Some (txt "i")) file0 = Some (None, w) /\ List.length (sent w) = 5%nat /\
  let s := reached lists0 situation0 (sent w) in
  map (fun x => (x_name x, x_flags x, num (x_glob x) JNLAG_ENABLED, g_dbs (config_of s x))) (instances s) =
    [(txt "i", 9, 1, [Some []; Some [EEam (P6 98 120) (P4 99 24); EEam (P6 101 128) (P4 100 32)]; Some []]); (txt "n", 5, 1, [Some []; Some []; Some []])].
Proof.
  eexists. split; [exact lists0_hashed|]. split; [repeat split|]. split.
  { split; [intros i; split; reflexivity|]. split; [intros i; constructor; [exact Logic.I|constructor; [right; cbn; lia|constructor; [exact Logic.I|constructor]]]|]. intros c I _ E. assert (F : Forall (fun c => c_pid c = 2) (cands (run lists0 init (past situation0)))) by (vm_compute; repeat constructor).
    rewrite Forall_forall in F. rewrite (F c I) in E. discriminate. }
  split. { intros i e m [I|[I|[I|[]]]]; try discriminate. injection I as <- _. vm_compute. reflexivity. }
  split; [intros i; split; reflexivity|]. split; [exact text0|]. split; [exact means0|]. split; [exact acceptable0|].
  split; [vm_compute; reflexivity|]. split; vm_compute; reflexivity.
Qed.
(** The client is slow: before its third message, somebody else's makes its upload
    expire. *)
Definition situation1 : situation (D := list File_Model.entry) :=
  Sit (past situation0) (fun i => if (i =? 2)%nat then [Atomic (Env 5 3 5000 2000 (fun _ => true) OK memory) (ends 1 (txt "z"))] else []) (circ situation0).
Example C81_unchanged_example : exists w,
  joolnl_file_parse (UEnv inet0 true (fun _ _ => true) (fun _ _ => true) true (fun _ => true) (answer lists0 situation1)) 1 true None file0 = Some (Some (Kernel ESRCH), w) /\
  List.length (sent w) = 3%nat /\ map x_name (instances (reached lists0 situation1 (sent w))) = [txt "n"; txt "i"].
Proof. eexists. split; [vm_compute; reflexivity|]. split; vm_compute; reflexivity. Qed.
