(** Proofs about uploads. *)
Require Import Verif.Base Verif.Addr_Model Verif.Glob_Model Verif.Inst_Model Verif.Inst_Spec Verif.Inst_Proofs Verif.Inst_Properties Verif.File_Model Verif.File_Spec Verif.Load_Model Verif.Load_Spec.
Require Import Permutation.

Lemma database_in : forall k x o, database k x = Some o -> In o (databases_of x).
Proof.
  intros k x o. unfold database, databases_of, db_of. destruct k, (x_dbs x) as [e d|p [b|] [j|]]; intros H; try discriminate; injection H as <-; cbn; auto 6.
Qed.
Lemma database_with_glob : forall k x g, database k (with_glob x g) = database k x. Proof. destruct k; reflexivity. Qed.
Lemma databases_with_glob : forall x g, databases_of (with_glob x g) = databases_of x. Proof. reflexivity. Qed.
Lemma kind_eqb_true : forall a b, kind_eqb a b = true <-> a = b. Proof. destruct a, b; cbn; split; congruence. Qed.
Lemma database_inj : forall x k k' o, NoDup (databases_of x) -> database k x = Some o -> database k' x = Some o -> k = k'.
Proof.
  intros x k k' o. unfold database, databases_of, db_of. destruct (x_dbs x) as [e d|p [b|] [j|]]; cbn [app]; intros ND;
    repeat match goal with H : NoDup (_ :: _) |- _ => inversion H; clear H; subst end; cbn [In] in *;
    destruct k, k'; intros A B; try discriminate; try reflexivity; exfalso; injection A as A; injection B as B; subst; tauto.
Qed.
Lemma same_x : forall x x', x_ns x' = x_ns x -> x_name x' = x_name x -> x_flags x' = x_flags x -> x_stats x' = x_stats x -> x_dbs x' = x_dbs x -> x' = with_glob x (x_glob x').
Proof. intros [] []; cbn; intros; subst; reflexivity. Qed.
Lemma with_same : forall x, with_glob x (x_glob x) = x. Proof. intros []; reflexivity. Qed.

Section Load.
Context {D : Type} (W : databases D File_Model.entry) (H : hashed W).
Notation op := (op (D := D) (E := File_Model.entry)).
Notation good := (good W).

Lemma run_app : forall (a b : list op) s, run W s (a ++ b) = run W (run W s a) b.
Proof. induction a as [|o a IH]; intros b s; cbn [app run]; [reflexivity|apply IH]. Qed.
Lemma history_snoc : forall (S : situation (D := D)) ms i m, history S i (ms ++ [m]) = history S i ms ++ meanwhile S (i + length ms) ++ [Atomic (circ S (i + length ms)) m].
Proof.
  induction ms as [|m' ms IH]; intros i m; cbn [app history length].
  - replace (i + 0)%nat with i by lia. reflexivity.
  - rewrite IH, <- !app_assoc. cbn [app]. replace (i + Datatypes.S (length ms))%nat with (Datatypes.S i + length ms)%nat by lia. reflexivity.
Qed.
Lemma reached_snoc : forall (S : situation (D := D)) ms m, reached W S (ms ++ [m]) = snd (step W (found W S ms) (Atomic (circ S (length ms)) m)).
Proof. intros S ms m. unfold found, reached. rewrite history_snoc. cbn [Nat.add]. rewrite !run_app. reflexivity. Qed.
Lemma answer_snoc : forall (S : situation (D := D)) ms m, answer W S (ms ++ [m]) = fst (step W (found W S ms) (Atomic (circ S (length ms)) m)).
Proof. intros S ms m. unfold answer. rewrite rev_app_distr. cbn [rev app]. rewrite rev_involutive, rev_length. reflexivity. Qed.
Lemma found_run : forall (S : situation (D := D)) ms, found W S ms = run W init (past S ++ history S 0 ms ++ meanwhile S (length ms)).
Proof. intros. unfold found, reached. rewrite !run_app. reflexivity. Qed.
Lemma reached_run : forall (S : situation (D := D)) ms, reached W S ms = run W init (past S ++ history S 0 ms). Proof. reflexivity. Qed.

(** ** The client's candidate *)

(** All candidates that the client's next message could be about: the one with number
    [cid], which is [x] with databases [f] *)
Definition only (ns pid : Z) (n : name) (cid : Z) (x : xlator) (f : kind -> D) (s : state D) : Prop :=
  forall d, In d (cands s) -> x_ns (c_x d) = ns -> c_pid d = pid -> x_name (c_x d) = n -> c_id d = cid /\ c_x d = x /\ holds s x f.
Definition none (ns pid : Z) (s : state D) : Prop := forall d, In d (cands s) -> x_ns (c_x d) = ns -> c_pid d = pid -> False.

Lemma config_holds : forall (s s' : state D) x f, config_of s' x = config_of s x -> holds s x f -> holds s' x f.
Proof.
  intros s s' x f E Hh k o Hk. rewrite <- (Hh k o Hk). apply (f_equal g_dbs) in E. cbn [config_of g_dbs] in E. apply (ext_in_map E). apply (database_in k). exact Hk.
Qed.
Lemma ids_unique : forall l c d, In c (cands (run W init l)) -> In d (cands (run W init l)) -> c_id d = c_id c -> d = c.
Proof. intros l c d. apply cand_same. apply (good_run W H l init (good_init W)). Qed.

(** What the operations of others do to the candidates of the process *)
Lemma other_step : forall l o ns pid, other ns pid o -> let s := run W init l in let s' := snd (step W s o) in
  forall d, In d (cands s') -> x_ns (c_x d) = ns -> c_pid d = pid -> In d (cands s) /\ config_of s' (c_x d) = config_of s (c_x d).
Proof.
  intros l o ns pid O s s' d Hd E1 E2.
  assert (X : (exists e m, o = Atomic e m) \/ forall e m, o <> Atomic e m) by (destruct o; try (right; discriminate); left; eauto).
  destruct X as [(e & m & ->)|X].
  - pose proof (C43_message W H l e m) as M. pose proof (C43_failed W H l e m) as F. cbv zeta in M, F. subst s s'. destruct (step W (run W init l) (Atomic e m)) as [r s'] eqn:Es. cbn [snd] in *.
    destruct r as [|err]; [|exact (proj1 (F ltac:(discriminate)) d Hd)]. specialize (M eq_refl).
    destruct M as (_ & c & c' & f & g & B & _ & U & _ & _ & _ & K & L).
    destruct (Z.eq_dec (c_id d) (c_id c)) as [Ei|Ni]; [|exact (K d Hd Ni)]. exfalso.
    assert (Hc : x_ns (c_x c) = e_ns e /\ c_pid c = e_pid e).
    { unfold begun in B. destruct (m_init m); [split; apply B|]. destruct B as [B _]. apply find_some in B as [_ B]. unfold addressed in B. lia. }
    destruct (m_end m).
    + destruct L as [L _]. apply L. rewrite <- Ei. apply in_map. exact Hd.
    + destruct L as [L _]. assert (Ed : d = Cand (c_id c) (c_x c') (e_now e) (c_pid c)).
      { apply (ids_unique (l ++ [Atomic e m])); rewrite ?run_app; cbn [run]; rewrite ?Es; cbn [snd]; auto. }
      subst d. cbn [c_x c_pid] in E1, E2. destruct U as [(U & _) _]. destruct O as [O|O]; [apply O|apply O]; [rewrite <- E1, U; symmetry; apply Hc|rewrite <- E2; symmetry; apply Hc].
  - pose proof (C43_candidates W H l o) as C. cbv zeta in C. specialize (C X). fold s in C. fold s' in C. destruct C as [C1 C2]. rewrite C1 in Hd. split; [exact Hd|apply C2; exact Hd].
Qed.
Lemma others_run : forall os l ns pid, Forall (other ns pid) os -> let s := run W init l in let s' := run W s os in
  forall d, In d (cands s') -> x_ns (c_x d) = ns -> c_pid d = pid -> In d (cands s) /\ config_of s' (c_x d) = config_of s (c_x d).
Proof.
  induction os as [|o os IH]; intros l ns pid F; cbv zeta; intros d Hd E1 E2; [split; [exact Hd|reflexivity]|].
  inversion F as [|? ? F1 F2]; subst. cbn [run] in Hd |- *. pose proof (IH (l ++ [o]) _ _ F2 d) as X. cbv zeta in X. rewrite run_app in X. cbn [run] in X. specialize (X Hd eq_refl eq_refl).
  destruct X as [X1 X2]. pose proof (other_step l o _ _ F1 d X1 eq_refl eq_refl) as [Y1 Y2]. split; [exact Y1|]. congruence.
Qed.
Lemma others_only : forall os l ns pid n cid x f, Forall (other ns pid) os -> only ns pid n cid x f (run W init l) -> only ns pid n cid x f (run W (run W init l) os).
Proof.
  intros os l ns pid n cid x f F O d Hd E1 E2 E3. destruct (others_run os l ns pid F d Hd E1 E2) as [I C]. destruct (O d I E1 E2 E3) as (A & B & Hh). split; [exact A|]. split; [exact B|].
  apply (config_holds (run W init l)); [rewrite <- B; exact C|exact Hh].
Qed.
Lemma others_none : forall os l ns pid, Forall (other ns pid) os -> none ns pid (run W init l) -> none ns pid (run W (run W init l) os).
Proof. intros os l ns pid F O d Hd E1 E2. destruct (others_run os l ns pid F d Hd E1 E2) as [I _]. exact (O d I E1 E2). Qed.

(** A candidate's databases are alive. *)
Lemma cand_alive : forall l c o, In c (cands (run W init l)) -> In o (databases_of (c_x c)) -> alive (run W init l) o.
Proof.
  intros l c o Hc Ho N. pose proof (C64 W H l) as [_ C]. specialize (C o). rewrite N in C. unfold references in C.
  assert (I : In o (flat_map databases_of (users (run W init l)))). { apply in_flat_map. exists (c_x c). split; [|exact Ho]. unfold users. rewrite !in_app_iff. right; left. apply in_map. exact Hc. }
  apply (count_occ_In Z.eq_dec) in I. lia.
Qed.

(** ** One message *)

Lemma own_step : forall l e m cid x f, let s := run W init l in only (e_ns e) (e_pid e) (m_name m) cid x f s -> m_init m = None -> m_end m = false ->
  forall s', step W s (Atomic e m) = (OK, s') ->
  exists x' fz gz, uploaded W m x x' fz gz /\ (forall k o, database k x = Some o -> fz o = Some (f k)) /\ (forall o, In o (databases_of x') -> contents s' o = gz o) /\
    forall d, In d (cands s') -> x_ns (c_x d) = e_ns e -> c_pid d = e_pid e -> x_name (c_x d) = m_name m -> c_id d = cid /\ c_x d = x'.
Proof.
  intros l e m cid x f s O Hi He s' Es. pose proof (C43_message W H l e m) as M. cbv zeta in M. fold s in M. rewrite Es in M. specialize (M eq_refl).
  destruct M as (_ & c & c' & fz & gz & B & _ & U & G & _ & _ & K & L). unfold begun in B. rewrite Hi in B. destruct B as [B Bf]. rewrite He in L. destruct L as [L _].
  apply find_some in B as [Ic A]. unfold addressed in A. unfold name_eqb in A. destruct (list_eq_dec Z.eq_dec (x_name (c_x c)) (m_name m)) as [En|]; [|rewrite andb_false_r in A; discriminate].
  destruct (O c Ic) as (A1 & A2 & A3); [lia|lia|exact En|].
  exists (c_x c'), fz, gz. split; [rewrite <- A2; exact U|]. split.
  { intros k o Ho. rewrite <- (A3 k o Ho). apply Bf. rewrite A2. exact (database_in k x o Ho). }
  split.
  { intros o Ho. apply G; [exact Ho|]. assert (X := cand_alive (l ++ [Atomic e m]) (Cand (c_id c) (c_x c') (e_now e) (c_pid c)) o). rewrite run_app in X. cbn [run] in X. fold s in X. rewrite Es in X. exact (X L Ho). }
  intros d Hd E1 E2 E3. destruct (Z.eq_dec (c_id d) (c_id c)) as [Ei|Ni].
  - assert (Ed : d = Cand (c_id c) (c_x c') (e_now e) (c_pid c)). { apply (ids_unique (l ++ [Atomic e m])); rewrite ?run_app; cbn [run]; fold s; rewrite ?Es; cbn [snd]; auto. }
    subst d. cbn [c_id c_x]. auto.
  - destruct (K d Hd Ni) as [I _]. destruct (O d I E1 E2 E3) as (Q & _). congruence.
Qed.

(** ** The messages of a file *)
Lemma sets_did : forall xt n force gs x x' fz gz, uploaded W (sets xt n force gs) x x' fz gz ->
  (forall o, gz o = fz o) /\ ((gs = [] /\ x' = x) \/ (gs <> [] /\ exists g, global_update (x_glob x) (type_of x) force gs = (OK, g) /\ x' = with_glob x g)).
Proof.
  intros xt n force gs x x' fz gz [(U1 & U2 & U3 & U4 & U5 & U6) (f1 & f2 & f3 & S1 & S2 & S3 & S4)]. cbn in S1, S2, S3, S4. split; [intros o; rewrite S4, S3, S2, S1; reflexivity|].
  pose proof (same_x x x' U1 U2 U3 U4 U5) as Ex. cbn [sets m_globals m_force] in U6. destruct gs as [|p gs]; [left|right].
  - split; [reflexivity|]. rewrite U6, with_same in Ex. exact Ex.
  - split; [discriminate|]. exists (x_glob x'). split; [exact U6|exact Ex].
Qed.
Definition fillable (k : kind) : Prop := k = Eamt \/ k = Denylist4 \/ k = Pool4 \/ k = Bib.
Lemma carries_did : forall xt n force k c x x' fz gz, fillable k -> uploaded W (carries xt n force k c) x x' fz gz ->
  x' = x /\ exists o d d', database k x = Some o /\ fz o = Some d /\ add_all W k x force c d = (OK, d') /\ gz o = Some d' /\ (forall o', o' <> o -> gz o' = fz o').
Proof.
  intros xt n force k c x x' fz gz Fk [(U1 & U2 & U3 & U4 & U5 & U6) (f1 & f2 & f3 & S1 & S2 & S3 & S4)].
  pose proof (same_x x x' U1 U2 U3 U4 U5) as Ex. assert (Eg : x_glob x' = x_glob x) by (destruct Fk as [->|[->|[->| ->]]]; exact U6). rewrite Eg, with_same in Ex. clear - Ex Fk S1 S2 S3 S4. subst x'. split; [reflexivity|].
  destruct Fk as [->|[->|[->| ->]]]; cbn [carries m_bl4 m_eamt m_pool4 m_bib m_force Inst_Spec.section] in *.
  - destruct S2 as (o & d & d' & A & B & C & E & F). exists o, d, d'. split; [exact A|]. split; [rewrite <- S1; exact B|]. split; [exact C|]. split; [rewrite S4, S3; exact E|]. intros o' No. rewrite S4, S3, F, S1 by exact No. reflexivity.
  - destruct S1 as (o & d & d' & A & B & C & E & F). exists o, d, d'. split; [exact A|]. split; [exact B|]. split; [exact C|]. split; [rewrite S4, S3, S2; exact E|]. intros o' No. rewrite S4, S3, S2, F by exact No. reflexivity.
  - destruct S3 as (o & d & d' & A & B & C & E & F). exists o, d, d'. split; [exact A|]. split; [rewrite <- S1, <- S2; exact B|]. split; [exact C|]. split; [rewrite S4; exact E|]. intros o' No. rewrite S4, F, S2, S1 by exact No. reflexivity.
  - destruct S4 as (o & d & d' & A & B & C & E & F). exists o, d, d'. split; [exact A|]. split; [rewrite <- S1, <- S2, <- S3; exact B|]. split; [exact C|]. split; [exact E|]. intros o' No. rewrite F, S3, S2, S1 by exact No. reflexivity.
Qed.

(** The situation after some messages of the upload *)
Definition stage (S : situation) (ns pid : Z) (n : name) (p : list message) (x : xlator) (f : kind -> D) : Prop :=
  NoDup (databases_of x) /\ x_ns x = ns /\ x_name x = n /\ exists cid, only ns pid n cid x f (reached W S p).

Section Upload.
Context (S : situation (D := D)) (ns pid : Z) (A : alone W ns pid S).
Lemma found_only : forall p n cid x f, only ns pid n cid x f (reached W S p) -> only ns pid n cid x f (found W S p).
Proof. intros p n cid x f O. unfold found. rewrite reached_run in *. apply others_only; [|exact O]. apply A. Qed.

Lemma own_message : forall p m n x f, stage S ns pid n p x f -> m_name m = n -> m_init m = None -> m_end m = false -> answer W S (p ++ [m]) = OK ->
  exists x' fz gz, uploaded W m x x' fz gz /\ (forall k o, database k x = Some o -> fz o = Some (f k)) /\ databases_of x' = databases_of x /\ x_ns x' = ns /\ x_name x' = n /\
    forall f', (forall k o, database k x' = Some o -> gz o = Some (f' k)) -> stage S ns pid n (p ++ [m]) x' f'.
Proof.
  intros p m n x f (ND & N1 & N2 & cid & O) Em Hi He Ha. apply found_only in O. rewrite answer_snoc in Ha.
  destruct A as (A1 & A2 & _). destruct (A1 (length p)) as [B1 B2].
  destruct (step W (found W S p) (Atomic (circ S (length p)) m)) as [r s'] eqn:Es. cbn [fst] in Ha. subst r.
  rewrite found_run in O, Es. rewrite <- Em in O. rewrite <- B1, <- B2 in O.
  destruct (own_step _ _ m cid x f O Hi He s' Es) as (x' & fz & gz & U & F1 & F2 & F3).
  exists x', fz, gz. assert (Us := U). destruct Us as [(U1 & U2 & U3 & U4 & U5 & _) _].
  assert (Db : databases_of x' = databases_of x) by (unfold databases_of; rewrite U4, U5; reflexivity).
  split; [exact U|]. split; [exact F1|]. split; [exact Db|]. split; [congruence|]. split; [congruence|]. intros f' Hf'.
  split; [rewrite Db; exact ND|]. split; [congruence|]. split; [congruence|]. exists cid. intros d Hd E1 E2 E3.
  rewrite reached_snoc, found_run, Es in *. cbn [snd] in *. destruct (F3 d Hd) as [Q1 Q2]; [congruence|congruence|congruence|].
  split; [exact Q1|]. split; [exact Q2|]. intros k o Hk. rewrite F2 by exact (database_in k x' o Hk). apply Hf'. exact Hk.
Qed.

Lemma add_all_app : forall k x force a b d d1, add_all W k x force a d = (OK, d1) -> add_all W k x force (a ++ b) d = add_all W k x force b d1.
Proof.
  induction a as [|en a IH]; intros b d d1 E; cbn [app add_all] in *; [congruence|].
  destruct (db_add W k x force en d) as [[|err] d2]; [|discriminate]. apply IH. exact E.
Qed.

Lemma own_chunks : forall xt n force k, fillable k -> forall chunks p x f, stage S ns pid n p x f ->
  (forall a b, map (carries xt n force k) chunks = a ++ b -> a <> [] -> answer W S (p ++ a) = OK) ->
  exists d, add_all W k x force (concat chunks) (f k) = (OK, d) /\ stage S ns pid n (p ++ map (carries xt n force k) chunks) x (fun j => if kind_eqb j k then d else f j).
Proof.
  intros xt n force k Fk. induction chunks as [|c chunks IH]; intros p x f St Ha; cbn [map concat] in *.
  - exists (f k). split; [reflexivity|]. rewrite app_nil_r. destruct St as (ND & N1 & N2 & cid & O). split; [exact ND|]. split; [exact N1|]. split; [exact N2|]. exists cid. intros d Hd E1 E2 E3.
    destruct (O d Hd E1 E2 E3) as (Q1 & Q2 & Q3). split; [exact Q1|]. split; [exact Q2|]. intros j o Hj. rewrite (Q3 j o Hj). destruct (kind_eqb j k) eqn:Ek; [|reflexivity]. apply kind_eqb_true in Ek. subst j. reflexivity.
  - destruct (own_message p (carries xt n force k c) n x f St) as (x' & fz & gz & U & F1 & Db & N1 & N2 & Nx).
    { destruct Fk as [->|[->|[->| ->]]]; reflexivity. } { destruct Fk as [->|[->|[->| ->]]]; reflexivity. } { destruct Fk as [->|[->|[->| ->]]]; reflexivity. }
    { apply (Ha [_] _ eq_refl). discriminate. }
    destruct (carries_did _ _ _ _ _ _ _ _ _ Fk U) as (-> & o & d & d' & Ho & Ed & Ea & Eg & Er).
    assert (Efd : d = f k) by (rewrite (F1 k o Ho) in Ed; congruence). subst d.
    destruct (IH (p ++ [carries xt n force k c]) x (fun j => if kind_eqb j k then d' else f j)) as (d2 & Ea2 & St2).
    { apply Nx. intros j o' Hj. destruct (kind_eqb j k) eqn:Ek.
      - apply kind_eqb_true in Ek. subst j. rewrite Hj in Ho. injection Ho as ->. exact Eg.
      - rewrite Er; [exact (F1 j o' Hj)|]. intros ->. assert (j = k) by exact (database_inj x j k o (proj1 St) Hj Ho). subst j. destruct k; discriminate. }
    { intros a b E Na. rewrite <- app_assoc. apply (Ha ([carries xt n force k c] ++ a) b); [cbn [app]; rewrite E; reflexivity|discriminate]. }
    exists d2. split.
    + rewrite (add_all_app _ _ _ _ _ _ _ Ea). replace d' with (if kind_eqb k k then d' else f k) at 1; [exact Ea2|]. rewrite (proj2 (kind_eqb_true k k) eq_refl). reflexivity.
    + rewrite <- app_assoc in St2. cbn [app] in St2. destruct St2 as (Q1 & Q2 & Q3 & cid & Q4). split; [exact Q1|]. split; [exact Q2|]. split; [exact Q3|]. exists cid.
      intros d Hd E1 E2 E3. destruct (Q4 d Hd E1 E2 E3) as (R1 & R2 & R3). split; [exact R1|]. split; [exact R2|]. intros j o' Hj. rewrite (R3 j o' Hj). destruct (kind_eqb j k); reflexivity.
Qed.

Definition fillables (ss : list File_Spec.section) : Prop := Forall (fun c => match c with Entries k _ => fillable k | _ => True end) ss.
Lemma own_sections : forall xt n force ss ms, transmits xt n force ss ms -> fillables ss -> forall p x f, stage S ns pid n p x f ->
  (forall a b, ms = a ++ b -> a <> [] -> answer W S (p ++ a) = OK) ->
  exists x' f', applied W force ss x f x' f' /\ stage S ns pid n (p ++ ms) x' f'.
Proof.
  intros xt n force ss ms T. induction T as [|gs ss ms T IH|k chunks ss ms Fc T IH]; intros Fs p x f St Ha.
  - exists x, f. split; [constructor|]. rewrite app_nil_r. exact St.
  - inversion Fs as [|? ? _ Fs']; subst.
    destruct (own_message p (sets xt n force gs) n x f St eq_refl eq_refl eq_refl) as (x1 & fz & gz & U & F1 & Db & N1 & N2 & Nx); [apply (Ha [_] _ eq_refl); discriminate|].
    destruct (sets_did _ _ _ _ _ _ _ _ U) as [Eg Ex].
    assert (Dk : forall k, database k x1 = database k x) by (destruct Ex as [[_ ->]|(_ & g & _ & ->)]; intros k; [reflexivity|apply database_with_glob]).
    destruct (IH Fs' (p ++ [sets xt n force gs]) x1 f) as (x' & f' & Ap & St').
    { apply Nx. intros k o Hk. rewrite Eg. apply F1. rewrite <- Dk. exact Hk. }
    { intros a b E Na. rewrite <- app_assoc. apply (Ha ([sets xt n force gs] ++ a) b); [cbn [app]; rewrite E; reflexivity|discriminate]. }
    exists x', f'. rewrite <- app_assoc in St'. split; [|exact St']. destruct Ex as [[-> ->]|(Ng & g & Eu & ->)]; [apply ap_none; exact Ap|]. apply (ap_settings W force gs g); assumption.
  - inversion Fs as [|? ? Fk Fs']; subst.
    destruct (own_chunks xt n force k Fk chunks p x f St) as (d & Ea & St1).
    { intros a b E Na. apply (Ha a (b ++ ms)); [rewrite E, app_assoc; reflexivity|exact Na]. }
    destruct (IH Fs' (p ++ map (carries xt n force k) chunks) x _ St1) as (x' & f' & Ap & St').
    { intros a b E Na. rewrite <- app_assoc. apply (Ha _ b); [rewrite E, app_assoc; reflexivity|]. intros E0. apply Na. apply app_eq_nil in E0. apply E0. }
    exists x', f'. rewrite <- app_assoc in St'. split; [|exact St']. apply (ap_entries W force k _ d); assumption.
Qed.
(** ** The first and the last message *)
Lemma lor_type : forall fw xt, fw = 4 \/ fw = 8 -> xt = 1 \/ xt = 2 -> Z.lor fw xt mod 4 = xt.
Proof. intros fw xt [->| ->] [->| ->]; reflexivity. Qed.
Lemma begin_stage : forall xt n fw, answer W S [begins xt n fw] = OK ->
  exists x, stage S ns pid n [begins xt n fw] x (db_new W) /\ x_flags x = Z.lor fw xt /\ globals_init (e_mem (circ S 0)) (type_of x) None = (OK, x_glob x).
Proof.
  intros xt n fw Ha. destruct A as (A1 & A2 & A3). destruct (A1 0%nat) as [B1 B2]. change [begins xt n fw] with ([] ++ [begins xt n fw]) in Ha |- *. rewrite answer_snoc in Ha. cbn [length] in Ha.
  assert (Nn : none ns pid (found W S [])). { unfold found. rewrite reached_run. cbn [history]. rewrite app_nil_r. apply others_none; [apply A2|exact A3]. }
  destruct (step W (found W S []) (Atomic (circ S 0) (begins xt n fw))) as [r s'] eqn:Es. cbn [fst] in Ha. subst r.
  rewrite found_run in Es, Nn. set (l := past S ++ history S 0 [] ++ meanwhile S (length (@nil message))) in *.
  pose proof (C43_message W H l (circ S 0) (begins xt n fw)) as M. cbv zeta in M. rewrite Es in M. specialize (M eq_refl).
  destruct M as (_ & c & c' & fz & gz & B & _ & U & G & _ & _ & K & L). cbn [begun begins m_init m_end m_name m_xt] in B, L. destruct L as [L _].
  unfold begun in B. cbn [begins m_init m_name m_xt] in B. destruct B as (C1 & C2 & C3 & C4 & C5 & C6 & C7 & C8 & C9).
  destruct U as [(U1 & U2 & U3 & U4 & U5 & U6) (f1 & f2 & f3 & S1 & S2 & S3 & S4)]. cbn in S1, S2, S3, S4, U6.
  assert (Ex : c_x c' = c_x c). { pose proof (same_x _ _ U1 U2 U3 U4 U5) as X. rewrite U6, with_same in X. exact X. } rewrite Ex in *.
  exists (c_x c). split; [|split; [exact C5|exact C6]]. split; [exact C8|]. split; [congruence|]. split; [exact C4|]. exists (c_id c).
  intros d Hd E1 E2 E3. rewrite reached_snoc in Hd |- *. cbn [length] in Hd |- *. rewrite found_run in Hd |- *. fold l in Hd |- *. rewrite Es in Hd |- *. cbn [snd] in Hd |- *.
  destruct (Z.eq_dec (c_id d) (c_id c)) as [Ei|Ni]; [|destruct (K d Hd Ni) as [I _]; destruct (Nn d I E1 E2)].
  assert (Ed : d = Cand (c_id c) (c_x c) (e_now (circ S 0)) (c_pid c)). { apply (ids_unique (l ++ [Atomic (circ S 0) (begins xt n fw)])); rewrite ?run_app; cbn [run]; rewrite ?Es; cbn [snd]; auto. }
  split; [exact Ei|]. split; [rewrite Ed; reflexivity|]. intros k o Hk. pose proof (database_in k _ o Hk) as Ho. rewrite G; [|exact Ho|].
  - rewrite S4, S3, S2, S1. unfold initial in C9. unfold database, db_of in Hk.
    destruct (x_dbs (c_x c)) as [ea de|p b j]; destruct k; try discriminate; try (injection Hk as <-); try tauto.
    + destruct C9 as (_ & _ & (o' & -> & Q) & _). congruence.
    + destruct C9 as (_ & _ & _ & (o' & -> & Q)). congruence.
  - assert (X := cand_alive (l ++ [Atomic (circ S 0) (begins xt n fw)]) (Cand (c_id c) (c_x c) (e_now (circ S 0)) (c_pid c)) o). rewrite run_app in X. cbn [run] in X. rewrite Es in X. exact (X L Ho).
Qed.

Lemma end_stage : forall xt n p x f, stage S ns pid n p x f -> answer W S (p ++ [ends xt n]) = OK ->
  replaced x (found W S p) (reached W S (p ++ [ends xt n])) /\
  forall y k o, In y (instances (reached W S (p ++ [ends xt n]))) -> database k y = Some o -> database k x = Some o -> contents (reached W S (p ++ [ends xt n])) o = Some (f k).
Proof.
  intros xt n p x f (ND & N1 & N2 & cid & O) Ha. apply found_only in O. rewrite answer_snoc in Ha. rewrite reached_snoc.
  destruct A as (A1 & A2 & _). destruct (A1 (length p)) as [B1 B2].
  destruct (step W (found W S p) (Atomic (circ S (length p)) (ends xt n))) as [r s'] eqn:Es. cbn [fst] in Ha. subst r. cbn [snd].
  rewrite found_run in *. set (l := past S ++ history S 0 p ++ meanwhile S (length p)) in *.
  pose proof (C43_message W H l (circ S (length p)) (ends xt n)) as M. cbv zeta in M. rewrite Es in M. specialize (M eq_refl).
  destruct M as (_ & c & c' & fz & gz & B & _ & U & G & _ & _ & K & L). unfold begun in B. cbn [ends m_init m_end m_name] in B, L. destruct B as [B Bf]. destruct L as (_ & L & _).
  apply find_some in B as [Ic Ad]. unfold addressed in Ad. unfold name_eqb in Ad. destruct (list_eq_dec Z.eq_dec (x_name (c_x c)) n) as [En|]; [|rewrite andb_false_r in Ad; discriminate].
  destruct (O c Ic) as (Q1 & Q2 & Q3); [lia|lia|exact En|].
  destruct U as [(U1 & U2 & U3 & U4 & U5 & U6) (f1 & f2 & f3 & S1 & S2 & S3 & S4)]. cbn in S1, S2, S3, S4, U6.
  assert (Ex : c_x c' = c_x c). { pose proof (same_x _ _ U1 U2 U3 U4 U5) as X. rewrite U6, with_same in X. exact X. } rewrite Ex, Q2 in *.
  split; [exact L|]. intros y k o Hy Hk Hx. pose proof (database_in k _ o Hx) as Ho. rewrite G; [|exact Ho|].
  - rewrite S4, S3, S2, S1, Bf by exact Ho. exact (Q3 k o Hx).
  - intros Nn. pose proof (C64 W H (l ++ [Atomic (circ S (length p)) (ends xt n)])) as [_ C]. specialize (C o). rewrite run_app in C. cbn [run] in C. rewrite Es in C. cbn [snd] in C. rewrite Nn in C. unfold references in C.
    assert (I : In o (flat_map databases_of (users s'))). { apply in_flat_map. exists y. split; [|exact (database_in k y o Hk)]. unfold users. apply in_or_app. left. exact Hy. }
    apply (count_occ_In Z.eq_dec) in I. lia.
Qed.
Lemma applied_key : forall force ss x f x' f', applied W force ss x f x' f' -> x = with_glob x' (x_glob x).
Proof.
  induction 1 as [x f|ss x f x' f' _ IH|gs g ss x f x' f' _ _ _ IH|k es d ss x f x' f' _ _ IH]; [symmetry; apply with_same|exact IH| |exact IH].
  destruct x, x'. unfold with_glob in *. cbn in *. congruence.
Qed.
End Upload.
End Load.
