(** Independent vocabulary for instances and atomic configuration. *)
Require Import Verif.Base Verif.Addr_Model Verif.Glob_Model Verif.Glob_Spec Verif.Inst_Model.
Require Import Coq.Sorting.Permutation.

(** ** Instances *)

(** The type: 1 is SIIT, 2 is NAT64; the framework: 1 is Netfilter, 2 is iptables. *)
Definition type_of (x : xlator) : Z := x_flags x mod 4.
Definition framework_of (x : xlator) : Z := (x_flags x / 4) mod 4.
(** What identifies an instance *)
Definition key (x : xlator) : Z * Z * name := (x_ns x, type_of x, x_name x).
(** [x], but with the BIB and joold of [old] *)
Definition inherit (x old : xlator) : xlator :=
  match x_dbs x, x_dbs old with
  | Nat64 p _ _, Nat64 _ b j => Xl (x_ns x) (x_name x) (x_flags x) (x_glob x) (x_stats x) (Nat64 p b j)
  | _, _ => x
  end.
(** [x], with other settings *)
Definition with_glob (x : xlator) (g : globals) : xlator := Xl (x_ns x) (x_name x) (x_flags x) g (x_stats x) (x_dbs x).
(** The name that an unnamed request is about *)
Definition iname (n : name) : name := match n with [] => INAME_DEFAULT | _ => n end.
(** What the user is shown of an instance, and sends back to get the next *)
Definition entry (x : xlator) : Z * name := (x_ns x mod 2 ^ 32, x_name x).
(** Both are Netfilter instances, of the same type and namespace. *)
Definition clash (x y : xlator) : Prop := x_ns x = x_ns y /\ type_of x = type_of y /\ framework_of x = 1 /\ framework_of y = 1.
(** The databases are those of the type. *)
Definition well_formed (x : xlator) : Prop :=
  (framework_of x = 1 \/ framework_of x = 2) /\
  match x_dbs x with
  | Siit _ _ => type_of x = 1
  | Nat64 _ b j => type_of x = 2 /\ b <> None /\ j <> None
  end.

Section Inst.
Context {D E : Type}.
Notation st := (state D).

(** get_hash() is a bucket. *)
Definition hashed (W : databases D E) : Prop := forall ns xt n, (bucket W ns xt n < 64)%nat.
(** The instances there are *)
Definition instances (s : st) : list xlator := map i_x (concat (table s)).
(** Everything that refers to databases: instances, candidates, and the clones
    in use *)
Definition users (s : st) : list xlator := instances s ++ map c_x (cands s) ++ held s.
(** The number of references to a database *)
Definition references (s : st) (o : Z) : Z := Z.of_nat (count_occ Z.eq_dec (flat_map databases_of (users s)) o).
Definition alive (s : st) (o : Z) : Prop := objs s o <> None.

(** Names the namespace, type, framework and name; or an error *)
Definition valid_name (n : name) : Prop := (length n < 16)%nat /\ Forall (fun c => 32 <= c) n.

(** One reply to a request for the instances *)
Definition reply (s : st) (xt : Z) (cap : nat) (off : option (Z * name)) : list (Z * name) * bool * option (Z * name) :=
  match xlator_foreach s xt off cap with
  | (OK, (r, more)) => (map (fun i => entry (i_x i)) r, more, None)
  | (Err _, (r, more)) => (map (fun i => entry (i_x i)) r, more, off)
  end.
(** No upload has created an instance. *)
Fixpoint no_creation (W : databases D E) (s : st) (l : list (op (D := D) (E := E))) : Prop :=
  match l with
  | [] => True
  | o :: l =>
    let s' := snd (step W s o) in
    match o with Atomic _ _ => incl (map key (instances s')) (map key (instances s)) | _ => True end /\ no_creation W s' l
  end.

(** Values that fit in their C types *)
Definition wt_op (o : op (D := D) (E := E)) : Prop :=
  match o with
  | Add e _ _ _ p => wt_globals (e_mem e) /\ match p with Some q => wt_prefix6 q | None => True end
  | GlobalUpdate _ _ _ _ (Some msg) => wt_msg msg
  | Atomic e m => wt_globals (e_mem e) /\ match m_globals m with Some msg => wt_msg msg | None => True end
  | _ => True
  end.

(** ** Configurations *)

(** What an instance runs with, or a candidate holds: its namespace, name and flags, its settings, and the contents of its databases. *)
Record config := Config { g_ns : Z; g_name : name; g_flags : Z; g_glob : globals; g_dbs : list (option D) }.
Definition config_of (s : st) (x : xlator) : config := Config (x_ns x) (x_name x) (x_flags x) (x_glob x) (map (contents s) (databases_of x)).

(** ** Uploads *)

(** The database of a kind, of those that messages can fill *)
Definition db_of (k : kind) (x : xlator) : option Z :=
  match k, x_dbs x with
  | Eamt, Siit e _ => Some e
  | Denylist4, Siit _ d => Some d
  | Pool4, Nat64 p _ _ => Some p
  | Bib, Nat64 _ b _ => b
  | _, _ => None
  end.
(** Adding entries one by one, until one fails *)
Fixpoint add_all (W : databases D E) (k : kind) (x : xlator) (force : bool) (l : list E) (d : D) : rc * D :=
  match l with
  | [] => (OK, d)
  | en :: l => match db_add W k x force en d with (OK, d) => add_all W k x force l d | r => r end
  end.
(** One section of a message, about one kind of database: [f] and [g] are the databases
    before and after. *)
Definition section (W : databases D E) (k : kind) (x : xlator) (force : bool) (l : option (list E)) (f g : Z -> option D) : Prop :=
  match l with
  | None => forall o, g o = f o
  | Some l => exists o d d', db_of k x = Some o /\ f o = Some d /\ add_all W k x force l d = (OK, d') /\ g o = Some d' /\ (forall o', o' <> o -> g o' = f o')
  end.
(** The settings of a message *)
Definition settings_section (m : message (E := E)) (x x' : xlator) : Prop :=
  x_ns x' = x_ns x /\ x_name x' = x_name x /\ x_flags x' = x_flags x /\ x_stats x' = x_stats x /\ x_dbs x' = x_dbs x /\
  match m_globals m with
  | None => x_glob x' = x_glob x
  | Some l => global_update (x_glob x) (type_of x) (m_force m) l = (OK, x_glob x')
  end.
(** A message to a candidate: its sections in order *)
Definition uploaded (W : databases D E) (m : message) (x x' : xlator) (f g : Z -> option D) : Prop :=
  settings_section m x x' /\
  exists f1 f2 f3, section W Denylist4 x' (m_force m) (m_bl4 m) f f1 /\ section W Eamt x' (m_force m) (m_eamt m) f1 f2 /\
    section W Pool4 x' (m_force m) (m_pool4 m) f2 f3 /\ section W Bib x' (m_force m) (m_bib m) f3 g.
(** The candidate that a message which is not the first is about *)
Definition addressed (e : env) (n : name) (c : candidate) : bool := (x_ns (c_x c) =? e_ns e) && name_eqb (x_name (c_x c)) n && (c_pid c =? e_pid e).
(** The databases of [x] are as created, in [f]. *)
Definition initial (W : databases D E) (f : Z -> option D) (x : xlator) : Prop :=
  match x_dbs x with
  | Siit e d => f (x_stats x) = Some (db_new W Stats) /\ f e = Some (db_new W Eamt) /\ f d = Some (db_new W Denylist4)
  | Nat64 p b j => f (x_stats x) = Some (db_new W Stats) /\ f p = Some (db_new W Pool4) /\
      (exists o, b = Some o /\ f o = Some (db_new W Bib)) /\ (exists o, j = Some o /\ f o = Some (db_new W Joold))
  end.
(** The message [m] is about the candidate [c], a new one or not, with databases that are [f]
    before the message. *)
Definition begun (W : databases D E) (e : env) (m : message (E := E)) (s : st) (c : candidate) (f : Z -> option D) : Prop :=
  match m_init m with
  | None => find (addressed e (m_name m)) (cands s) = Some c /\ forall o, In o (databases_of (c_x c)) -> f o = contents s o
  | Some xf => ~ In (c_id c) (map c_id (cands s)) /\ c_pid c = e_pid e /\ x_ns (c_x c) = e_ns e /\ x_name (c_x c) = m_name m /\ x_flags (c_x c) = Z.lor xf (m_xt m) /\
      globals_init (e_mem e) (type_of (c_x c)) None = (OK, x_glob (c_x c)) /\
      (forall o, In o (databases_of (c_x c)) -> ~ alive s o) /\ NoDup (databases_of (c_x c)) /\ initial W f (c_x c)
  end.
(** The instances are what they were, but with [x] in place of the one with its namespace,
    type and name. *)
Definition replaced (x : xlator) (s s' : st) : Prop :=
  (~ In (key x) (map key (instances s)) /\ Permutation (instances s') (x :: instances s)) \/
  (exists old rest, Permutation (instances s) (old :: rest) /\ key old = key x /\ framework_of old = framework_of x /\
     (type_of x = 2 -> prefix6_equals (pre6 (pool6 (x_glob old))) (pre6 (pool6 (x_glob x))) = true) /\ Permutation (instances s') (inherit x old :: rest)).
(** Its last message was two seconds ago, or more. *)
Definition expired (e : env) (c : candidate) : Prop := time_after (e_now e) (c_time c + e_timeout e) = true.
End Inst.
