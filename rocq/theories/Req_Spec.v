(** What was asked for: each command is one call of a database's function on
    the instance of that name, and the caller is told its result. Nothing here
    mentions messages. *)
Require Import Verif.Base Verif.Addr_Model Verif.Pool4_Model Verif.Bib_Model Verif.Glob_Model Verif.Inst_Model Verif.File_Model Verif.Nla_Model Verif.Nla_Spec Verif.Req_Model.

(** The instances that a command is about *)
Definition about (c : command) : Z :=
  match c with
  | EamtAdd _ _ _ | EamtRm _ _ | EamtFlush | DenyAdd _ _ | DenyRm _ | DenyFlush => XT_SIIT
  | Pool4Add _ _ | Pool4Rm _ _ | Pool4Flush _ | BibAdd _ _ _ | BibRm _ _ _ => XT_NAT64
  | GlobalUpdate _ _ _ => XT_ANY
  end.

(** Arguments that fit their C types. An entry of pool4 is one; a setting exists, is about the client's type of instance and has
    a value of its type. *)
Definition fit_opt {A} (P : A -> Prop) (o : option A) : Prop := match o with Some a => P a | None => True end.
Definition fit_setting (xt id : Z) (v : gval) : Prop :=
  kind_ok (Glob_Model.policy xt id) v = true /\
  match v with
  | VU8 x => is_u8 x
  | VU32 x => is_u32 x
  | VPlateaus l => id = JNLAG_PLATEAUS /\ l <> [] /\ Forall is_u16 l /\ zlen l <= 64
  | VPrefix6 len addr => (id = JNLAG_POOL6 \/ id = JNLAG_POOL6791V6) /\
      ((exists l a, len = Some l /\ addr = Some a /\ wt_prefix6 (P6 a l)) \/ (len = Some 0 /\ addr = None))
  | VPrefix4 len addr => id = JNLAG_POOL6791V4 /\
      ((exists l a, len = Some l /\ addr = Some a /\ wt_prefix4 (P4 a l)) \/ (len = Some 0 /\ addr = None))
  end.
Definition fit_command (xt : Z) (c : command) : Prop :=
  match c with
  | EamtAdd p6 p4 _ => wt_prefix6 p6 /\ wt_prefix4 p4
  | EamtRm p6 p4 => fit_opt wt_prefix6 p6 /\ fit_opt wt_prefix4 p4
  | DenyAdd p _ | DenyRm p => wt_prefix4 p
  | Pool4Add e _ | Pool4Rm e _ => home e = TPool4 /\ fit_entry e
  | BibAdd a6 a4 proto => fit_taddr6 a6 /\ fit_taddr4 a4 /\ is_u8 proto
  | BibRm a6 a4 proto => fit_opt fit_taddr6 a6 /\ fit_opt fit_taddr4 a4 /\ (a6 <> None \/ a4 <> None) /\ is_u8 proto
  | GlobalUpdate id v _ => fit_setting xt id v
  | EamtFlush | DenyFlush | Pool4Flush _ => True
  end.
(** A name for an instance: none, or up to 15 printable characters *)
Definition fit_name (n : option name) : Prop := fit_opt (fun n => (length n <= 15)%nat /\ Forall (fun c => 32 <= c <= 127) n) n.
Definition name_of (n : option name) : name := match n with None | Some [] => INAME_DEFAULT | Some n => n end.

Section Asked.
Context {S I : Type} (K : kernel S I).

(** The call, on the instance [i] *)
Definition call (xt : Z) (c : command) (i : I) (s : S) : rc * S :=
  match c with
  | EamtAdd p6 p4 force => k_eamt_add K i p6 p4 force s
  | EamtRm p6 p4 => k_eamt_rm K i p6 p4 s
  | EamtFlush => (OK, k_eamt_flush K i s)
  | DenyAdd p force => k_deny_add K i p force s
  | DenyRm p => k_deny_rm K i p s
  | DenyFlush => k_deny_flush K i s
  | Pool4Add e force => k_pool4_add K i e force s
  | Pool4Rm e quick =>
    match k_pool4_rm K i e s, e with
    | (OK, s), EPool4 _ _ _ proto p ports => (OK, if quick then s else k_bib_rm_range K i proto p (Z.min (fst ports) (snd ports), Z.max (fst ports) (snd ports)) s)
    | r, _ => r
    end
  | Pool4Flush quick => (OK, if quick then k_pool4_flush K i s else k_bib_flush K i (k_pool4_flush K i s))
  | BibAdd a6 a4 proto => if k_pool4_contains K i proto a4 s then k_bib_add K i (EBib a6 a4 proto true) s else (Err EINVAL, s)
  | BibRm a6 a4 proto =>
    match (match a6, a4 with
           | Some a6, Some a4 => inr (a6, a4)
           | Some a6, None => k_bib_find6 K i proto a6 s
           | None, Some a4 => k_bib_find4 K i proto a4 s
           | None, None => inl EINVAL
           end) with
    | inr (a6, a4) => k_bib_rm K i proto a6 a4 s
    | inl e => (Err e, s)
    end
  | GlobalUpdate id v force =>
    match global_update (k_globals K i s) xt force [(id, v)] with
    | (OK, g) => k_replace K i g s
    | (Err e, _) => (Err e, s)
    end
  end.

(** With the checks that come first. [xt]: the type of the client that asks *)
Definition asked (xt : Z) (n : option name) (c : command) (s : S) : rc * S :=
  if negb (bit_and xt (about c)) then (Err EINVAL, s)
  else match k_find K (name_of n) xt s with
       | inl e => (Err e, s)
       | inr i => call xt c i s
       end.
End Asked.

(** What the user is told: the error's number and the module's explanation, all of it if it fits in a message. *)
Definition told (w : answering) (r : rc) : outcome :=
  match r with
  | OK => Success
  | Err e =>
    let n := zlen (a_text w) + 1 in
    Refused (errcode e) (if 28 + 8 + (4 + n + (- n) mod 4) <=? a_cap w then a_text w else firstn 128 (a_text w))
  end.

(** The circumstances: the caller is a network administrator, client and module are of the same version (the first two numbers), the module of the client's type is
    loaded, there is memory; messages have room for what the client writes in one, and for an error and 128 characters. *)
Record normal {S I} (K : kernel S I) (u : client) (w : answering) : Prop := Normal {
  n_version : is_u32 (u_version u) /\ is_u32 (k_version K) /\ u_version u / 2 ^ 16 = k_version K / 2 ^ 16;
  n_type : (u_xt u = XT_SIIT /\ k_siit K = true) \/ (u_xt u = XT_NAT64 /\ k_nat64 K = true);
  n_memory : u_mem u = true /\ a_mem w = true;
  n_room : 600 <= u_cap u /\ 200 <= a_cap w <= 65000;
  n_text : Forall (fun c => 1 <= c <= 255) (a_text w)
}.

(** ** Any octets *)

(** What the module may have read as the value of a setting: as above, or an empty list of plateaus *)
Definition fit_reading (xt id : Z) (v : gval) : Prop := fit_setting xt id v \/ (id = JNLAG_PLATEAUS /\ v = VPlateaus []).
(** The operation of each command *)
Definition operation_of (c : command) : operation :=
  match c with
  | EamtAdd _ _ _ => JNLOP_EAMT_ADD | EamtRm _ _ => JNLOP_EAMT_RM | EamtFlush => JNLOP_EAMT_FLUSH
  | DenyAdd _ _ => JNLOP_BL4_ADD | DenyRm _ => JNLOP_BL4_RM | DenyFlush => JNLOP_BL4_FLUSH
  | Pool4Add _ _ => JNLOP_POOL4_ADD | Pool4Rm _ _ => JNLOP_POOL4_RM | Pool4Flush _ => JNLOP_POOL4_FLUSH
  | BibAdd _ _ _ => JNLOP_BIB_ADD | BibRm _ _ _ => JNLOP_BIB_RM | GlobalUpdate _ _ _ => JNLOP_GLOBAL_UPDATE
  end.
Definition op_about (o : operation) : Z :=
  match o with
  | JNLOP_GLOBAL_UPDATE => XT_ANY
  | JNLOP_EAMT_ADD | JNLOP_EAMT_RM | JNLOP_EAMT_FLUSH | JNLOP_BL4_ADD | JNLOP_BL4_RM | JNLOP_BL4_FLUSH => XT_SIIT
  | _ => XT_NAT64
  end.

Section Any.
Context {S I : Type} (K : kernel S I).
(** One call, with arguments that fit their types, on one instance. An entry added to the BIB may say that it is not a static one. Settings may be many. Removing from pool4
    drops the BIB entries of the range, even if that removal failed. *)
Inductive obeyed (xt : Z) (i : I) (s : S) : operation -> rc * S -> Prop :=
| ob_call : forall c, fit_command xt c -> (forall e q, c <> Pool4Rm e q) -> (forall id v f, c <> GlobalUpdate id v f) -> obeyed xt i s (operation_of c) (call K xt c i s)
| ob_bib : forall a6 a4 proto st, fit_taddr6 a6 -> fit_taddr4 a4 -> is_u8 proto -> k_pool4_contains K i proto a4 s = true ->
    obeyed xt i s JNLOP_BIB_ADD (k_bib_add K i (EBib a6 a4 proto st) s)
| ob_pool4 : forall mark it flags proto p ports ports' q r s',
    fit_entry (EPool4 mark it flags proto p ports) ->
    k_pool4_rm K i (EPool4 mark it flags proto p ports) s = (r, s') ->
    ports' = ports \/ ports' = (snd ports, fst ports) ->
    obeyed xt i s JNLOP_POOL4_RM (r, if q : bool then s' else k_bib_rm_range K i proto p ports' s')
| ob_globals : forall msg force g, Forall (fun a => fit_reading xt (fst a) (snd a)) msg ->
    global_update (k_globals K i s) xt force msg = (OK, g) ->
    obeyed xt i s JNLOP_GLOBAL_UPDATE (k_replace K i g s).
(** A request is refused and changes nothing, or is one call on the instance of its name and type. *)
Definition refused_or_obeyed (o : operation) (b : list Z) (s : S) (x : rc * S) : Prop :=
  (exists e, x = (Err e, s)) \/
  exists i, k_find K (match cstring (hdr_iname b) with [] => INAME_DEFAULT | n => n end) (hdr_xt b) s = inr i /\ obeyed (hdr_xt b) i s o x.
End Any.
