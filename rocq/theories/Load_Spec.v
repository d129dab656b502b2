(** What uploading a file is expected to do to the kernel. *)
Require Import Verif.Base Verif.Addr_Model Verif.Glob_Model Verif.Inst_Model Verif.Inst_Spec Verif.File_Model Verif.File_Spec Verif.Load_Model.

(** The database of each kind *)
Definition database (k : kind) (x : xlator) : option Z :=
  match k with
  | Stats => Some (x_stats x)
  | Joold => match x_dbs x with Nat64 _ _ j => j | _ => None end
  | _ => db_of k x
  end.
Definition kind_eqb (a b : kind) : bool :=
  match a, b with
  | Stats, Stats | Eamt, Eamt | Denylist4, Denylist4 | Pool4, Pool4 | Bib, Bib | Joold, Joold => true
  | _, _ => false
  end.

Section Load.
Context {D : Type} (W : databases D entry).

(** The sections of a file, one after the other, all of them accepted: from the
    translator [x] with databases [f] to [x'] with [f']. *)
Inductive applied (force : bool) : list File_Spec.section -> xlator -> (kind -> D) -> xlator -> (kind -> D) -> Prop :=
| ap_nil x f : applied force [] x f x f
| ap_none ss x f x' f' : applied force ss x f x' f' -> applied force (Settings [] :: ss) x f x' f'
| ap_settings gs g ss x f x' f' : gs <> [] -> global_update (x_glob x) (type_of x) force gs = (OK, g) ->
    applied force ss (with_glob x g) f x' f' -> applied force (Settings gs :: ss) x f x' f'
| ap_entries k es d ss x f x' f' : add_all W k x force es (f k) = (OK, d) ->
    applied force ss x (fun j => if kind_eqb j k then d else f j) x' f' -> applied force (Entries k es :: ss) x f x' f'.

(** Not an upload of the process [pid] in the namespace [ns] *)
Definition other (ns pid : Z) (o : op (D := D) (E := entry)) : Prop :=
  match o with Atomic e _ => e_ns e <> ns \/ e_pid e <> pid | _ => True end.
(** The client is the process [pid] in [ns], it does nothing else meanwhile, and it has
    not begun an upload before. *)
Definition alone (ns pid : Z) (S : situation) : Prop :=
  (forall i, e_ns (circ S i) = ns /\ e_pid (circ S i) = pid) /\ (forall i, Forall (other ns pid) (meanwhile S i)) /\
  (forall c, In c (cands (run W init (past S))) -> x_ns (c_x c) = ns -> c_pid c = pid -> False).
(** No other process' upload meanwhile is so late that the client's expires. *)
Definition prompt (S : situation (D := D)) : Prop :=
  forall i e m, In (Atomic e m) (meanwhile S (Datatypes.S i)) -> time_after (e_now e) (e_now (circ S i) + e_timeout e) = false.
(** The kernel has memory and can register hooks. *)
Definition able (S : situation (D := D)) : Prop := forall i, (forall k, e_alloc (circ S i) k = true) /\ e_hook (circ S i) = OK.
(** The client has memory, and its messages have room for one entry or for all settings. *)
Definition roomy (U : uenv) : Prop :=
  u_nest U = true /\ (forall x, u_entry U [] x = true) /\ (forall l x, u_setting U l x = true) /\ u_ctrl U = true /\ (forall k, u_mem U k = true).
(** What a new instance of this name, type and framework becomes if the sections are
    applied is valid, and it can replace the one with its name and type, if there is one until the end. *)
Definition acceptable (S : situation (D := D)) (ns xt : Z) (n : name) (fw : Z) (force : bool) (ss : list File_Spec.section) : Prop :=
  forall x0, x_ns x0 = ns -> x_name x0 = n -> x_flags x0 = Z.lor fw xt -> globals_init (e_mem (circ S 0)) xt None = (OK, x_glob x0) ->
  exists x f, applied force ss x0 (db_new W) x f /\
    (xt = 2 -> set6 (pool6 (x_glob x)) = true /\ bib_in_pool4 W ns (f Pool4) (f Bib) = true) /\
    forall ms y, Forall (fun m => m_end m = false) ms -> In y (instances (found W S ms)) -> key y = (ns, xt, n) ->
      framework_of y = fw / 4 /\ (xt = 2 -> prefix6_equals (pre6 (pool6 (x_glob y))) (pre6 (pool6 (x_glob x))) = true).
(** The databases of [x] are [f]. *)
Definition holds (s : state D) (x : xlator) (f : kind -> D) : Prop :=
  forall k o, database k x = Some o -> contents s o = Some (f k).
(** Nothing is changed that is in use. *)
Definition untouched (s s' : state D) : Prop :=
  table s' = table s /\ nf_list s' = nf_list s /\ hooks s' = hooks s /\ held s' = held s /\
  forall x, In x (instances s ++ held s) -> config_of s' x = config_of s x.
End Load.
