(** Uploads that succeed. *)
Require Import Verif.Base Verif.Addr_Model Verif.Glob_Model Verif.Inst_Model Verif.Inst_Spec Verif.Inst_Proofs Verif.Inst_Properties Verif.File_Model Verif.File_Spec Verif.Load_Model Verif.Load_Spec Verif.Load_Proofs.
Require Import Permutation.

Lemma globals_init_ok : forall mem xt, xt = 1 \/ xt = 2 -> exists g, globals_init mem xt None = (OK, g).
Proof. intros mem xt [->| ->]; unfold globals_init; cbn; eexists; reflexivity. Qed.

Lemma app_split_two : forall {A} (a b c d : list A), a ++ b = c ++ d -> (exists t, a = c ++ t /\ d = t ++ b) \/ (exists t, c = a ++ t /\ b = t ++ d).
Proof.
  intros A. induction a as [|x a IH]; intros b c d E; [right; exists c; split; [reflexivity|exact E]|]. destruct c as [|y c]; [left; exists (x :: a); split; [reflexivity|symmetry; exact E]|].
  cbn in E. injection E as -> E. destruct (IH _ _ _ E) as [(t & -> & ->)|(t & -> & ->)]; [left|right]; exists t; split; reflexivity.
Qed.

Section Works.
Context {D : Type} (W : databases D File_Model.entry) (H : hashed W).
Notation op := (op (D := D) (E := File_Model.entry)).

Lemma replace_works : forall e x (s : state D), inv W [] [] s -> well_formed x -> incl (databases_of x) (refs [] s) -> valid_name (x_name x) ->
  (type_of x = 2 -> set6 (pool6 (x_glob x)) = true) ->
  (forall p b j dp db, x_dbs x = Nat64 p (Some b) j -> contents s p = Some dp -> contents s b = Some db -> bib_in_pool4 W (x_ns x) dp db = true) ->
  (forall k, e_alloc e k = true) -> e_hook e = OK ->
  (forall y, In y (instances s) -> key y = key x -> framework_of y = framework_of x /\ (type_of x = 2 -> prefix6_equals (pre6 (pool6 (x_glob y))) (pre6 (pool6 (x_glob x))) = true)) ->
  fst (xlator_replace W e x s) = OK.
Proof.
  intros e x s I F L Vn V6 Vb Al Hk Old. unfold xlator_replace.
  assert (B : basic_add_validations (x_name x) (x_flags x) (if set6 (pool6 (x_glob x)) then Some (pre6 (pool6 (x_glob x))) else None) = OK).
  { apply (basic_add_spec W H). split; [exact Vn|]. fold (type_of x). fold (framework_of x). split; [exact (type_cases x F)|]. split; [apply F|]. intros T. rewrite (V6 T). discriminate. }
  rewrite B. 
  assert (Alive : forall o, In o (databases_of x) -> exists d, contents s o = Some d).
  { intros o Ho. apply L in Ho. apply (objs_ok_alive _ _ _ (r_objs _ _ (v_rf _ _ _ _ I))) in Ho. unfold contents. destruct (objs s o) as [[d m]|]; [cbn; eauto|congruence]. }
  assert (Br : basic_replace_validations W s x = Some OK).
  { unfold basic_replace_validations. destruct (x_dbs x) as [ea de|p [b|] j] eqn:Ex; [reflexivity| |destruct F as [_ F]; rewrite Ex in F; destruct F as (_ & F & _); congruence].
    destruct (Alive p) as [dp Ep]; [unfold databases_of; rewrite Ex; cbn; tauto|]. destruct (Alive b) as [db Eb]; [unfold databases_of; rewrite Ex; cbn; tauto|]. rewrite Ep, Eb, (Vb p b j dp db eq_refl Ep Eb). reflexivity. }
  rewrite Br, Al. cbn [negb].
  assert (I0 : inv W [] [] (with_next s (next s + 1))).
  { change (with_next s (next s + 1)) with (with_next (set_objs s (objs s)) (next s + 1)). eapply inv_objs; [exact I|lia|apply (v_rf _ _ _ _ I)|]. intros o Ho. apply (r_next _ _ (v_rf _ _ _ _ I)) in Ho. lia. }
  destruct (get_inv W [] [] x (with_next s (next s + 1)) I0 (full_wf x F) L) as (f1 & -> & I1 & K1).
  rewrite flags2xt_mod. fold (type_of x).
  change (find_instance W (set_objs (with_next s (next s + 1)) f1) (x_ns x) (type_of x) (x_name x)) with (find_instance W s (x_ns x) (type_of x) (x_name x)).
  pose proof (find_spec W s (x_ns x) (type_of x) (x_name x) (v_tb _ _ _ _ I) (type_cases x F)) as Fs. fold (key x) in Fs.
  destruct (find_instance W s (x_ns x) (type_of x) (x_name x)) as [old|].
  - destruct Fs as [Hold Kold]. assert (Fold : well_formed (i_x old)) by (apply (b_wf _ _ (v_tb _ _ _ _ I)); exact Hold).
    destruct (Old (i_x old)) as [O1 O2]; [apply in_map; exact Hold|exact Kold|].
    rewrite (proj2 (framework_eq (i_x old) x Fold F) O1). cbn [negb]. rewrite is_nat64_spec by exact F.
    destruct (Z.eqb_spec (type_of x) 2) as [T|T]; [rewrite (O2 T)|]; cbn [negb andb]; destruct (match x_dbs x with Siit _ _ => _ | Nat64 _ _ _ => _ end); reflexivity.
  - unfold xlator_add_locked. cbn [i_x]. rewrite Al, Hk. cbn [negb]. destruct (is_netfilter x); reflexivity.
Qed.

(** A message that is not the first *)
Lemma own_ok : forall l e m c, let s := run W init l in find (addressed e (m_name m)) (cands s) = Some c -> valid_name (m_name m) -> m_xt m = 1 \/ m_xt m = 2 -> m_init m = None ->
  (forall s1 : state D, inv W [] [] s1 -> In c (cands s1) -> table s1 = table s -> (forall o, In o (databases_of (c_x c)) -> contents s1 o = contents s o) -> fst (fst (serve_message W e m c s1)) = OK) ->
  fst (step W s (Atomic e m)) = OK.
Proof.
  intros l e m c s Fc Vn Hx Hi Hs. destruct (good_run W H l init (good_init W)) as [I _]. fold s in I.
  cbn [step]. unfold if_xt. replace ((m_xt m =? XT_SIIT) || (m_xt m =? XT_NAT64)) with true by (destruct Hx as [->| ->]; reflexivity).
  unfold atomconfig_add. rewrite (proj2 (iname_spec W H _) Vn), Hi.
  pose proof (search_spec W [] e (m_name m) (cands s) s I (incl_refl _) (c_ids _ (v_cd _ _ _ _ I))) as P. destruct (search e (m_name m) (cands s) s) as [oc s1].
  destruct P as (-> & f & p & E1 & I1 & K1 & _ & In1 & _). rewrite Fc in *. specialize (In1 c eq_refl).
  assert (R := Hs s1 I1 In1). destruct (serve_message W e m c s1) as [[r c'] s2]. cbn [fst] in R. rewrite R; [destruct (existsb _ _); reflexivity|rewrite E1; reflexivity|].
  intros o Ho. rewrite E1 at 1. unfold contents. cbn [objs with_cands set_objs]. apply (K1 o). exact (cand_refs s1 c In1 o Ho).
Qed.

(** ** What stays *)

Lemma stay_step : forall l o ns pid t c, other ns pid o -> (forall e m, o = Atomic e m -> time_after (e_now e) (t + e_timeout e) = false) ->
  In c (cands (run W init l)) -> x_ns (c_x c) = ns -> c_pid c = pid -> c_time c = t -> In c (cands (snd (step W (run W init l) o))).
Proof.
  intros l o ns pid t c Ho Ht Hc En Ep Et.
  assert (NA : (forall e m, o <> Atomic e m) -> In c (cands (snd (step W (run W init l) o)))).
  { intros N. destruct (C43_candidates W H l o N) as [-> _]. exact Hc. }
  destruct o as [| | | | |e m| | | |]; try (apply NA; intros; discriminate). clear NA. cbn [other] in Ho. specialize (Ht e m eq_refl).
  assert (Ne : ~ expired e c) by (unfold expired; rewrite Et, Ht; discriminate).
  assert (Na : addressed e (m_name m) c = false) by (unfold addressed; destruct Ho; lia).
  pose proof (C43_message W H l e m) as M. pose proof (C43_failed W H l e m) as Fl. cbv zeta in M, Fl.
  destruct (step W (run W init l) (Atomic e m)) as [[|err] s'] eqn:Es; cbn [snd].
  - destruct (M eq_refl) as (_ & d & d' & f & g & B & _ & _ & _ & _ & K & _).
    assert (Nd : c_id c <> c_id d).
    { intros Ed. unfold begun in B. destruct (m_init m) as [xf|].
      - destruct B as [B _]. apply B. rewrite <- Ed. apply in_map. exact Hc.
      - destruct B as [B _]. apply find_some in B as [Id Ad]. rewrite (ids_unique W H l d c Id Hc Ed) in Na. congruence. }
    destruct (K c Hc Nd) as [I|X]; [exact I|contradiction].
  - destruct (Fl ltac:(discriminate)) as [_ Q]. destruct (Q c Hc) as [I|[X|[_ X]]]; [exact I|contradiction|]. apply find_some in X as [_ X]. congruence.
Qed.
Lemma stay_run : forall os l ns pid t c, Forall (other ns pid) os -> (forall e m, In (Atomic e m) os -> time_after (e_now e) (t + e_timeout e) = false) ->
  In c (cands (run W init l)) -> x_ns (c_x c) = ns -> c_pid c = pid -> c_time c = t -> In c (cands (run W (run W init l) os)).
Proof.
  induction os as [|o os IH]; intros l ns pid t c Fo Ht Hc En Ep Et; [exact Hc|]. inversion Fo as [|? ? Fo1 Fo2]; subst. cbn [run].
  assert (X := IH (l ++ [o]) (x_ns (c_x c)) (c_pid c) (c_time c) c Fo2). rewrite run_app in X. cbn [run] in X. apply X; try reflexivity.
  - intros e m I. apply (Ht e m). right. exact I.
  - apply (stay_step l o (x_ns (c_x c)) (c_pid c) (c_time c)); auto. intros e m ->. apply (Ht e m). left. reflexivity.
Qed.

Section Upload.
Context (S : situation (D := D)) (ns pid : Z) (A : alone W ns pid S) (P : prompt S) (n : name) (Vn : valid_name n) (xt : Z) (Hx : xt = 1 \/ xt = 2).

(** The candidate is there, and was last changed by the last message. *)
Definition there (p : list message) : Prop :=
  exists c, In c (cands (reached W S p)) /\ x_ns (c_x c) = ns /\ c_pid c = pid /\ x_name (c_x c) = n /\ c_time c = e_now (circ S (pred (length p))).
Lemma found_there : forall p, p <> [] -> there p -> exists c, In c (cands (found W S p)) /\ x_ns (c_x c) = ns /\ c_pid c = pid /\ x_name (c_x c) = n.
Proof.
  intros p Np (c & I & E1 & E2 & E3 & E4). exists c. split; [|auto]. unfold found. rewrite reached_run in *. destruct A as (_ & A2 & _).
  apply (stay_run _ _ ns pid (e_now (circ S (pred (length p))))); auto. intros e m J. destruct p as [|x p]; [contradiction|]. cbn [length pred] in *. exact (P _ _ _ J).
Qed.
Lemma found_cand : forall p x f, p <> [] -> stage W S ns pid n p x f -> there p ->
  exists c, find (addressed (circ S (length p)) n) (cands (found W S p)) = Some c /\ In c (cands (found W S p)) /\ c_x c = x /\ holds (found W S p) x f.
Proof.
  intros p x f Np (_ & _ & _ & cid & O) T. destruct (found_there p Np T) as (c & I & E1 & E2 & E3). apply (found_only W H S ns pid A) in O.
  destruct A as (A1 & _ & _). destruct (A1 (length p)) as [B1 B2].
  destruct (find (addressed (circ S (length p)) n) (cands (found W S p))) as [d|] eqn:Fd.
  - apply find_some in Fd as [Id Ad]. exists d. split; [reflexivity|]. unfold addressed in Ad. rewrite !andb_true_iff, name_eqb_spec in Ad. destruct Ad as [[Q1 Q2] Q3].
    destruct (O d Id) as (_ & Ex & Hh); [lia|lia|exact Q2|]. auto.
  - exfalso. assert (X := find_none _ _ Fd c I). unfold addressed in X. rewrite (proj2 (name_eqb_spec _ _) E3), E1, E2, B1, B2, !Z.eqb_refl in X. discriminate.
Qed.
Lemma there_last : forall p m, m_name m = n -> m_end m = false -> answer W S (p ++ [m]) = OK -> there (p ++ [m]).
Proof.
  intros p m Em Ee Ha. rewrite answer_snoc in Ha. unfold there. rewrite reached_snoc, found_run in *. destruct A as (A1 & _ & _). destruct (A1 (length p)) as [B1 B2].
  pose proof (C43_message W H (past S ++ history S 0 p ++ meanwhile S (length p)) (circ S (length p)) m) as M. cbv zeta in M.
  destruct (step W (run W init _) (Atomic (circ S (length p)) m)) as [r s']. cbn [fst snd] in *. destruct (M Ha) as (_ & c & c' & f & g & B & _ & U & _ & _ & _ & _ & L). rewrite Ee in L. destruct L as [L _].
  eexists. split; [exact L|]. cbn [c_x c_pid c_time]. destruct U as [(U1 & U2 & _) _]. rewrite U1, U2.
  replace (pred (length (p ++ [m]))) with (length p) by (rewrite app_length; cbn; lia).
  unfold begun in B. destruct (m_init m).
  - destruct B as (_ & C1 & C2 & C3 & _). repeat split; congruence.
  - destruct B as [B _]. apply find_some in B as [_ Ad]. unfold addressed in Ad. rewrite !andb_true_iff, name_eqb_spec in Ad. destruct Ad as [[Q1 Q2] Q3]. repeat split; try lia; congruence.
Qed.

(** ** The messages *)
Lemma message_ok : forall p m x f, p <> [] -> stage W S ns pid n p x f -> there p -> m_name m = n -> m_xt m = xt -> m_init m = None ->
  (forall s1 c, inv W [] [] s1 -> In c (cands s1) -> table s1 = table (found W S p) -> c_x c = x -> well_formed x -> holds s1 x f -> fst (fst (serve_message W (circ S (length p)) m c s1)) = OK) ->
  answer W S (p ++ [m]) = OK.
Proof.
  intros p m x f Np St T Em Ext Ei Hs. destruct (found_cand p x f Np St T) as (c & Fc & Ic & Ex & Hh). rewrite answer_snoc. rewrite found_run in *. rewrite <- Em in Fc.
  apply (own_ok _ _ m c Fc); [rewrite Em; exact Vn|rewrite Ext; exact Hx|exact Ei|]. intros s1 I1 In1 Et Eo. apply (Hs s1 c I1 In1 Et Ex).
  - rewrite <- Ex. apply (c_wf _ (v_cd _ _ _ _ I1)). exact In1.
  - intros k o Hk. rewrite Eo; [exact (Hh k o Hk)|]. rewrite Ex. exact (database_in k x o Hk).
Qed.
Lemma sets_ok : forall p force gs g x f, p <> [] -> stage W S ns pid n p x f -> there p -> (gs <> [] -> global_update (x_glob x) (type_of x) force gs = (OK, g)) ->
  answer W S (p ++ [sets xt n force gs]) = OK.
Proof.
  intros p force gs g x f Np St T Hg. apply (message_ok p _ x f Np St T); try reflexivity. intros s1 c _ _ _ Ex _ _. unfold serve_message, sets. cbn [m_globals m_force m_bl4 m_eamt m_pool4 m_bib m_end opt_entries].
  destruct gs as [|a gs]; [reflexivity|]. unfold handle_global. rewrite Ex, flags2xt_mod. fold (type_of x). rewrite Hg by discriminate. reflexivity.
Qed.
Lemma carries_ok : forall p force k es d x f o, p <> [] -> stage W S ns pid n p x f -> there p -> fillable k -> database k x = Some o -> add_all W k x force es (f k) = (OK, d) ->
  answer W S (p ++ [carries xt n force k es]) = OK.
Proof.
  intros p force k es d x f o Np St T Fk Ek Ea. apply (message_ok p _ x f Np St T); try (destruct k; reflexivity). intros s1 c I1 In1 _ Ex _ Hh.
  assert (Ro : In o (refs [] s1)) by (apply (cand_refs s1 c In1); rewrite Ex; exact (database_in k x o Ek)).
  assert (Ok : fst (add_entries W k x force o es s1) = OK).
  { destruct (entries_spec W H [] k x force o es s1 I1 Ro) as (h & d0 & d1 & _ & _ & _ & C0 & _ & E0). rewrite (Hh k o Ek) in C0. injection C0 as <-. rewrite Ea in E0. congruence. }
  destruct Fk as [->|[->|[->| ->]]]; unfold serve_message, carries; cbn [m_globals m_force m_bl4 m_eamt m_pool4 m_bib m_end opt_entries]; unfold handle_entries; rewrite Ex; unfold database, db_of in Ek;
    destruct (x_dbs x) as [ea de|p0 [b|] j]; try discriminate; injection Ek as ->; destruct (add_entries W _ x force o es s1) as [[|] s2]; try reflexivity; discriminate.
Qed.
Lemma ends_ok : forall p x f, p <> [] -> stage W S ns pid n p x f -> there p -> (forall k, e_alloc (circ S (length p)) k = true) -> e_hook (circ S (length p)) = OK ->
  (type_of x = 2 -> set6 (pool6 (x_glob x)) = true /\ bib_in_pool4 W ns (f Pool4) (f Bib) = true) ->
  (forall y, In y (instances (found W S p)) -> key y = key x -> framework_of y = framework_of x /\ (type_of x = 2 -> prefix6_equals (pre6 (pool6 (x_glob y))) (pre6 (pool6 (x_glob x))) = true)) ->
  answer W S (p ++ [ends xt n]) = OK.
Proof.
  intros p x f Np St T Al Hk H2 Old. apply (message_ok p _ x f Np St T); try reflexivity. intros s1 c I1 In1 Et Ex F Hh. destruct St as (_ & N1 & N2 & _).
  unfold serve_message, ends. cbn [m_globals m_force m_bl4 m_eamt m_pool4 m_bib m_end opt_entries]. unfold commit. rewrite Ex.
  assert (R : fst (xlator_replace W (circ S (length p)) x s1) = OK).
  { apply replace_works; auto.
    - rewrite <- Ex. exact (cand_refs s1 c In1).
    - rewrite N2. exact Vn.
    - intros Ty. apply H2, Ty.
    - intros p0 b j dp db Ed Cp Cb. assert (Ty : type_of x = 2) by (destruct F as [_ F]; rewrite Ed in F; apply F). rewrite N1.
      rewrite (Hh Pool4 p0) in Cp by (unfold database, db_of; rewrite Ed; reflexivity). rewrite (Hh Bib b) in Cb by (unfold database, db_of; rewrite Ed; reflexivity).
      injection Cp as <-. injection Cb as <-. apply H2, Ty.
    - unfold instances. rewrite Et. exact Old. }
  destruct (xlator_replace W (circ S (length p)) x s1) as [[|] s2]; [reflexivity|discriminate].
Qed.
Lemma begins_ok : forall fw, fw = 4 \/ fw = 8 -> (forall k, e_alloc (circ S 0) k = true) -> answer W S [begins xt n fw] = OK.
Proof.
  intros fw Hf Al. change [begins xt n fw] with ([] ++ [begins xt n fw]). rewrite answer_snoc. cbn [length step]. set (s := found W S []). set (e := circ S 0) in *. unfold if_xt. cbn [begins m_xt].
  replace ((xt =? XT_SIIT) || (xt =? XT_NAT64)) with true by (destruct Hx as [->| ->]; reflexivity). unfold atomconfig_add. cbn [begins m_name m_init m_xt]. rewrite (proj2 (iname_spec W H _) Vn).
  assert (Q : exists c s', handle_init W e fw n xt s = ((OK, Some c), s')).
  { unfold handle_init. rewrite Al. cbn [negb]. unfold xlator_init. replace (xf_validate (flags2xf (Z.lor fw xt))) with OK by (destruct Hf as [->| ->], Hx as [->| ->]; reflexivity).
    replace (flags2xt (Z.lor fw xt)) with xt by (destruct Hf as [->| ->], Hx as [->| ->]; reflexivity).
    destruct (globals_init_ok (e_mem e) xt Hx) as [g Eg]. unfold XT_SIIT, XT_NAT64. destruct Hx as [Ex|Ex]; rewrite Ex in Eg |- *; cbn [Z.eqb Pos.eqb]; [unfold init_siit, XT_SIIT|unfold init_nat64, XT_NAT64]; rewrite Eg, !Al; cbn [negb]; unfold alloc_obj; eexists; eexists; reflexivity. }
  destruct Q as (c & s' & ->). unfold serve_message, begins. cbn [m_globals m_force m_bl4 m_eamt m_pool4 m_bib m_end opt_entries]. destruct (existsb _ _); reflexivity.
Qed.

(** ** Sections *)
(** The kind of database is one of the type's. *)
Definition suits (k : kind) : Prop := xt = 1 /\ (k = Eamt \/ k = Denylist4) \/ xt = 2 /\ (k = Pool4 \/ k = Bib).
Lemma suits_fillable : forall k, suits k -> fillable k.
Proof. unfold suits, fillable. tauto. Qed.
Lemma suits_database : forall k x, suits k -> well_formed x -> type_of x = xt -> exists o, database k x = Some o.
Proof.
  intros k x Sk [_ F] T. unfold database, db_of. destruct (x_dbs x) as [ea de|p [b|] j]; destruct Sk as [[E [->| ->]]|[E [->| ->]]]; try (eexists; reflexivity); try lia; destruct F as (_ & F & _); congruence.
Qed.
Lemma add_all_split : forall k x force a b d d2, add_all W k x force (a ++ b) d = (OK, d2) -> exists d1, add_all W k x force a d = (OK, d1) /\ add_all W k x force b d1 = (OK, d2).
Proof.
  intros k x force. induction a as [|en a IH]; intros b d d2 E; [exists d; auto|]. cbn [app add_all] in *. destruct (db_add W k x force en d) as [[|err] d']; [exact (IH _ _ _ E)|discriminate].
Qed.
Lemma chunks_ok : forall force k x f, suits k -> well_formed x -> type_of x = xt -> forall p, p <> [] -> stage W S ns pid n p x f -> there p ->
  forall chunks d, add_all W k x force (concat chunks) (f k) = (OK, d) ->
  (forall a b, map (carries xt n force k) chunks = a ++ b -> a <> [] -> answer W S (p ++ a) = OK) /\ there (p ++ map (carries xt n force k) chunks).
Proof.
  intros force k x f Sk F Ty p Np St T. induction chunks as [|c chunks IH] using rev_ind; intros d Ea.
  - cbn [map]. rewrite app_nil_r. split; [|exact T]. intros a b E Na. symmetry in E. apply app_eq_nil in E as [-> _]. contradiction.
  - rewrite concat_app in Ea. cbn [concat] in Ea. rewrite app_nil_r in Ea. destruct (add_all_split _ _ _ _ _ _ _ Ea) as (d1 & E1 & E2). destruct (IH d1 E1) as [I1 I2].
    destruct (own_chunks W H S ns pid A xt n force k (suits_fillable k Sk) chunks p x f St I1) as (d1' & E1' & St1). rewrite E1 in E1'. injection E1' as <-.
    destruct (suits_database k x Sk F Ty) as [o Ho].
    assert (Np1 : p ++ map (carries xt n force k) chunks <> []) by (intros E; apply app_eq_nil in E as [E _]; contradiction).
    assert (Ok : answer W S ((p ++ map (carries xt n force k) chunks) ++ [carries xt n force k c]) = OK).
    { apply (carries_ok _ force k c d x _ o Np1 St1 I2 (suits_fillable k Sk) Ho). cbv beta. rewrite (proj2 (kind_eqb_true k k) eq_refl). exact E2. }
    rewrite map_app. cbn [map]. split.
    + intros a b E Na. destruct b as [|y b] using rev_ind; [rewrite app_nil_r in E; rewrite <- E, app_assoc; exact Ok|]. rewrite app_assoc in E. apply app_inj_tail in E as [E _]. exact (I1 a b E Na).
    + rewrite app_assoc. apply there_last; [destruct k; reflexivity|destruct k; reflexivity|exact Ok].
Qed.
Lemma stage_wf : forall p x f, p <> [] -> stage W S ns pid n p x f -> there p -> well_formed x.
Proof.
  intros p x f Np St T. destruct (found_cand p x f Np St T) as (c & _ & I & <- & _). rewrite found_run in I. destruct (good_run W H (past S ++ history S 0 p ++ meanwhile S (length p)) init (good_init W)) as [J _].
  apply (c_wf _ (v_cd _ _ _ _ J)). exact I.
Qed.
Definition suited (ss : list File_Spec.section) : Prop := Forall (fun c => match c with Entries k _ => suits k | _ => True end) ss.
Lemma sections_ok : forall force ss ms, transmits xt n force ss ms -> suited ss -> forall p x f x' f', p <> [] -> stage W S ns pid n p x f -> there p -> type_of x = xt ->
  applied W force ss x f x' f' ->
  (forall a b, ms = a ++ b -> a <> [] -> answer W S (p ++ a) = OK) /\ stage W S ns pid n (p ++ ms) x' f' /\ there (p ++ ms).
Proof.
  intros force ss ms Tr. induction Tr as [|gs ss ms Tr IH|k chunks ss ms Nn Tr IH]; intros Su p x f x' f' Np St T Ty Ap.
  - inversion Ap; subst. rewrite app_nil_r. split; [|split; assumption]. intros a b E Na. symmetry in E. apply app_eq_nil in E as [-> _]. contradiction.
  - inversion Su as [|? ? _ Su']; subst.
    assert (Q : exists g x1, (gs <> [] -> global_update (x_glob x) (type_of x) force gs = (OK, g)) /\ (gs = [] /\ x1 = x \/ gs <> [] /\ x1 = with_glob x g) /\ applied W force ss x1 f x' f').
    { inversion Ap as [|? ? ? ? ? Ap1|? g ? ? ? ? ? Ng Eg Ap1|]; subst.
      - exists (x_glob x), x. split; [intros Z; exfalso; apply Z; reflexivity|]. split; [left; split; reflexivity|exact Ap1].
      - exists g, (with_glob x g). split; [intros _; exact Eg|]. split; [right; split; [exact Ng|reflexivity]|exact Ap1]. }
    destruct Q as (g & x1 & Hg & Hx1 & Ap1). assert (Ok := sets_ok p force gs g x f Np St T Hg).
    destruct (own_sections W H S ns pid A xt n force [Settings gs] [sets xt n force gs]) with (p := p) (x := x) (f := f) as (x2 & f2 & Ap2 & St2); [repeat constructor|constructor; [exact Logic.I|constructor]|exact St| |].
    { intros a b E Na. destruct a as [|y a]; [contradiction|]. injection E as <- E. symmetry in E. apply app_eq_nil in E as [-> _]. exact Ok. }
    assert (E2 : x2 = x1 /\ f2 = f).
    { inversion Ap2 as [|? ? ? ? ? Ap3|? g' ? ? ? ? ? Ng Eg Ap3|]; subst; inversion Ap3; subst; destruct Hx1 as [[Z1 Z2]|[Z1 Z2]]; try congruence; try (split; congruence).
      rewrite (Hg Z1) in Eg. split; congruence. }
    destruct E2 as [-> ->].
    destruct (IH Su' (p ++ [sets xt n force gs]) x1 f x' f') as (I1 & I2 & I3); auto.
    { intros E. apply app_eq_nil in E as [_ E]. discriminate. }
    { apply there_last; [reflexivity|reflexivity|exact Ok]. }
    { destruct Hx1 as [[_ ->]|[_ ->]]; exact Ty. }
    rewrite <- app_assoc in I2, I3. split; [|split; assumption]. intros a b E Na. destruct a as [|y a]; [contradiction|]. injection E as <- E.
    destruct a as [|z a]; [exact Ok|]. specialize (I1 (z :: a) b E ltac:(discriminate)). rewrite <- app_assoc in I1. exact I1.
  - inversion Su as [|? ? Sk Su']; subst. inversion Ap as [| | |? ? d ? ? ? ? ? Ea Ap1]; subst.
    assert (F := stage_wf p x f Np St T). destruct (chunks_ok force k x f Sk F Ty p Np St T chunks d Ea) as [C1 C2].
    destruct (own_chunks W H S ns pid A xt n force k (suits_fillable k Sk) chunks p x f St C1) as (d' & Ea' & St1). rewrite Ea in Ea'. injection Ea' as <-.
    destruct (IH Su' (p ++ map (carries xt n force k) chunks) x _ x' f' ltac:(intros E; apply app_eq_nil in E as [E _]; contradiction) St1 C2 Ty Ap1) as (I1 & I2 & I3).
    rewrite <- app_assoc in I2, I3. split; [|split; assumption]. intros a b E Na.
    destruct (app_split_two _ _ _ _ E) as [(t & Et & _)|(t & -> & Et)].
    + exact (C1 a t Et Na).
    + destruct t as [|z t]; [rewrite app_nil_r; apply (C1 _ []); [symmetry; apply app_nil_r|rewrite app_nil_r in Na; exact Na]|]. rewrite app_assoc. apply (I1 _ b Et). discriminate.
Qed.
End Upload.
End Works.
