(** The requests that change one thing (an entry added, an entry removed, a table
    flushed, a setting updated), from the function of the client's library to
    the functions of the databases and back, on octets: src/usr/nl/core.c, the
    requests of src/usr/nl/{eamt,denylist4,pool4,bib,global}.c,
    src/mod/common/nl/nl_handler.c, nl_common.c, nl_core.c and the handlers of
    src/mod/common/nl/{eam,denylist4,pool4,bib,global}.c.

    The functions of the databases are parameters ([kernel]). So are the texts
    of error messages, the sizes of the messages (libnl's and
    GENLMSG_DEFAULT_SIZE) and whether memory is available. The headers of
    Netlink and of Generic Netlink are not in the octets: what they say is the
    operation. [char] is signed, as on x86. *)
Require Import Verif.Base Verif.Addr_Model Verif.Pool4_Model Verif.Bib_Model Verif.Glob_Model Verif.Inst_Model Verif.File_Model Verif.Nla_Model.

(** src/common/config.h:23-64 enum joolnl_operation, those modelled here *)
Inductive operation :=
| JNLOP_GLOBAL_UPDATE | JNLOP_EAMT_ADD | JNLOP_EAMT_RM | JNLOP_EAMT_FLUSH | JNLOP_BL4_ADD | JNLOP_BL4_RM | JNLOP_BL4_FLUSH
| JNLOP_POOL4_ADD | JNLOP_POOL4_RM | JNLOP_POOL4_FLUSH | JNLOP_BIB_ADD | JNLOP_BIB_RM.

(** src/common/config.h:66-82 enum joolnl_attr_root *)
Definition JNLAR_ADDR_QUERY : Z := 1.
Definition JNLAR_GLOBALS : Z := 2.
Definition JNLAR_BL4_ENTRIES : Z := 3.
Definition JNLAR_EAMT_ENTRIES : Z := 4.
Definition JNLAR_POOL4_ENTRIES : Z := 5.
Definition JNLAR_BIB_ENTRIES : Z := 6.
Definition JNLAR_SESSION_ENTRIES : Z := 7.
Definition JNLAR_OFFSET : Z := 8.
Definition JNLAR_OFFSET_U8 : Z := 9.
Definition JNLAR_OPERAND : Z := 10.
Definition JNLAR_PROTO : Z := 11.
Definition JNLAR_ATOMIC_INIT : Z := 12.
Definition JNLAR_ATOMIC_END : Z := 13.
Definition JNLAR_MAX : Z := 13.
(** src/common/config.h:266-271 enum joolnl_attr_error *)
Definition JNLAERR_CODE : Z := 1.
Definition JNLAERR_MSG : Z := 2.
Definition JNLAERR_MAX : Z := 2.
(** src/common/config.h:274-278 JOOLNLHDR_FLAGS_ERROR, _FORCE, _QUICK *)
Definition FLAGS_ERROR : Z := 1.
Definition FLAGS_FORCE : Z := 2.
Definition FLAGS_QUICK : Z := 4.

(** src/common/config.h:297-312 struct joolnlhdr; JOOLNL_HDR_MAGIC, INAME_MAX_SIZE *)
Definition JOOLNL_HDR_MAGIC : list Z := [106; 111; 111; 108].
Definition hdr_magic (b : list Z) : list Z := firstn 4 b.
Definition hdr_version (b : list Z) : Z := be_of (firstn 4 (skipn 4 b)).
Definition hdr_xt (b : list Z) : Z := nth 8 b 0.
Definition hdr_flags (b : list Z) : Z := nth 9 b 0.
Definition hdr_iname (b : list Z) : list Z := firstn 16 (skipn 12 b).
(** The string in an array of characters *)
Fixpoint cstring (l : list Z) : list Z := match l with [] => [] | c :: l => if c =? 0 then [] else c :: cstring l end.

(** ** The client *)

(** The client's version, the type of instances of its socket, the size of its messages and whether it gets memory *)
Record client := Client { u_version : Z; u_xt : Z; u_cap : Z; u_mem : bool }.

(** What the functions of the library are called with *)
Inductive command :=
| EamtAdd (p6 : prefix6) (p4 : prefix4) (force : bool)
| EamtRm (p6 : option prefix6) (p4 : option prefix4)
| EamtFlush
| DenyAdd (p : prefix4) (force : bool)
| DenyRm (p : prefix4)
| DenyFlush
| Pool4Add (e : entry) (force : bool)
| Pool4Rm (e : entry) (quick : bool)
| Pool4Flush (quick : bool)
| BibAdd (a6 a4 : Z * Z) (proto : Z)
| BibRm (a6 a4 : option (Z * Z)) (proto : Z)
| GlobalUpdate (id : Z) (v : gval) (force : bool).

(** Instances and databases *)
Record kernel (S I : Type) := Kern {
  k_version : Z; (* xlat_version() *)
  k_siit : bool; (* is_siit_enabled() *)
  k_nat64 : bool; (* is_nat64_enabled() *)
  k_find : name -> Z -> S -> errno + I; (* xlator_find_current() *)
  k_eamt_add : I -> prefix6 -> prefix4 -> bool -> S -> rc * S;
  k_eamt_rm : I -> option prefix6 -> option prefix4 -> S -> rc * S;
  k_eamt_flush : I -> S -> S;
  k_deny_add : I -> prefix4 -> bool -> S -> rc * S;
  k_deny_rm : I -> prefix4 -> S -> rc * S;
  k_deny_flush : I -> S -> rc * S;
  k_pool4_add : I -> entry -> bool -> S -> rc * S;
  k_pool4_rm : I -> entry -> S -> rc * S; (* pool4db_rm_usr() *)
  k_pool4_flush : I -> S -> S;
  k_pool4_contains : I -> Z -> Z * Z -> S -> bool;
  k_bib_add : I -> entry -> S -> rc * S; (* bib_add_static() *)
  k_bib_find6 : I -> Z -> Z * Z -> S -> errno + ((Z * Z) * (Z * Z));
  k_bib_find4 : I -> Z -> Z * Z -> S -> errno + ((Z * Z) * (Z * Z));
  k_bib_rm : I -> Z -> Z * Z -> Z * Z -> S -> rc * S;
  k_bib_rm_range : I -> Z -> prefix4 -> Z * Z -> S -> S;
  k_bib_flush : I -> S -> S;
  k_globals : I -> S -> globals;
  k_replace : I -> globals -> S -> rc * S (* xlator_replace() of the clone with these globals *)
}.
Arguments k_version {S I}. Arguments k_siit {S I}. Arguments k_nat64 {S I}. Arguments k_find {S I}.
Arguments k_eamt_add {S I}. Arguments k_eamt_rm {S I}. Arguments k_eamt_flush {S I}.
Arguments k_deny_add {S I}. Arguments k_deny_rm {S I}. Arguments k_deny_flush {S I}.
Arguments k_pool4_add {S I}. Arguments k_pool4_rm {S I}. Arguments k_pool4_flush {S I}. Arguments k_pool4_contains {S I}.
Arguments k_bib_add {S I}. Arguments k_bib_find6 {S I}. Arguments k_bib_find4 {S I}. Arguments k_bib_rm {S I}.
Arguments k_bib_rm_range {S I}. Arguments k_bib_flush {S I}. Arguments k_globals {S I}. Arguments k_replace {S I}.

Section Requests.
Context (h : host).

(** src/common/config.c:129-144 iname_validate *)
Definition iname_validate_u (n : option name) : bool :=
  match n with None => true | Some n => (length n <? 16)%nat && forallb (fun c => (32 <=? c) && (c <? 128)) n end.
(** src/usr/nl/core.c:33-68 joolnl_alloc_msg *)
Definition joolnl_alloc_msg (u : client) (n : option name) (flags : Z) : option (list Z) :=
  if negb (iname_validate_u n) then None
  else if negb (u_mem u) || (u_cap u <? 28) then None
  else
    let iname := match n with Some n => n | None => INAME_DEFAULT end in
    Some (JOOLNL_HDR_MAGIC ++ octets 4 (u_version u) ++ [u8 (u_xt u); u8 flags; 0; 0] ++ iname ++ repeat 0 (16 - length iname)).

(** src/usr/nl/eamt.c:78-106 __update *)
Definition update_eamt (cap : Z) (p6 : option prefix6) (p4 : option prefix4) : list Z -> put :=
  nest_u h cap JNLAR_OPERAND (andthen (nla_put_prefix6 h cap JNLAE_PREFIX6 p6) (nla_put_prefix4 h cap JNLAE_PREFIX4 p4)).
(** src/common/global.c:467-596, the str2nl functions, once the text has been read *)
Definition put_setting (cap id : Z) (v : gval) : list Z -> put :=
  match v with
  | VU8 x => nla_put_u8 h cap id x
  | VU32 x => nla_put_u32 h cap id x
  | VPlateaus l => nla_put_plateaus h cap id l
  | VPrefix6 len addr => nla_put_prefix6 h cap id match len, addr with Some len, Some addr => Some (P6 addr len) | _, _ => None end
  | VPrefix4 len addr => nla_put_prefix4 h cap id match len, addr with Some len, Some addr => Some (P4 addr len) | _, _ => None end
  end.

Definition force_flag (b : bool) : Z := if b then FLAGS_FORCE else 0.
Definition quick_flag (b : bool) : Z := if b then FLAGS_QUICK else 0.
(** The operation, the flags and the attributes of each function: src/usr/nl/eamt.c:108-132 joolnl_eamt_add, joolnl_eamt_rm, joolnl_eamt_flush;
    src/usr/nl/denylist4.c:78-121 __update, joolnl_denylist4_add, joolnl_denylist4_rm, joolnl_denylist4_flush;
    src/usr/nl/pool4.c:84-119 __update, joolnl_pool4_add, joolnl_pool4_rm, joolnl_pool4_flush;
    src/usr/nl/bib.c:83-121 __update, joolnl_bib_add, joolnl_bib_rm; src/usr/nl/global.c:94-119 joolnl_global_update *)
Definition function_of (c : command) : operation * Z * (Z -> list Z -> put) :=
  match c with
  | EamtAdd p6 p4 force => (JNLOP_EAMT_ADD, force_flag force, fun cap => update_eamt cap (Some p6) (Some p4))
  | EamtRm p6 p4 => (JNLOP_EAMT_RM, 0, fun cap => update_eamt cap p6 p4)
  | EamtFlush => (JNLOP_EAMT_FLUSH, 0, fun _ => done)
  | DenyAdd p force => (JNLOP_BL4_ADD, force_flag force, fun cap => nla_put_prefix4 h cap JNLAR_OPERAND (Some p))
  | DenyRm p => (JNLOP_BL4_RM, 0, fun cap => nla_put_prefix4 h cap JNLAR_OPERAND (Some p))
  | DenyFlush => (JNLOP_BL4_FLUSH, 0, fun _ => done)
  | Pool4Add e force => (JNLOP_POOL4_ADD, force_flag force, fun cap => put_entry_u h cap JNLAR_OPERAND e)
  | Pool4Rm e quick => (JNLOP_POOL4_RM, quick_flag quick, fun cap => put_entry_u h cap JNLAR_OPERAND e)
  | Pool4Flush quick => (JNLOP_POOL4_FLUSH, quick_flag quick, fun _ => done)
  | BibAdd a6 a4 proto => (JNLOP_BIB_ADD, 0, fun cap => nla_put_bib_attrs h cap JNLAR_OPERAND (Some a6) (Some a4) proto true)
  | BibRm a6 a4 proto => (JNLOP_BIB_RM, 0, fun cap => nla_put_bib_attrs h cap JNLAR_OPERAND a6 a4 proto true)
  | GlobalUpdate id v force => (JNLOP_GLOBAL_UPDATE, force_flag force, fun cap => nest_u h cap JNLAR_GLOBALS (put_setting cap id v))
  end.
(** The message; [None]: the function gives up before sending anything *)
Definition client_request (u : client) (n : option name) (c : command) : option (operation * list Z) :=
  let '(o, flags, w) := function_of c in
  match joolnl_alloc_msg u n flags with
  | None => None
  | Some b => match w (u_cap u) b with Put b => Some (o, b) | NoRoom _ => None end
  end.

(** What the function returns: success, the error and the text that the module sent, or an error of its own: nothing was sent, no
    answer of Jool's arrived, or it made no sense. *)
Inductive outcome := Success | Refused (code : Z) (text : list Z) | Unsent | NoAnswer | Nonsense.

(** src/usr/nl/core.c:70-132 validate_magic, validate_version, validate_stateness, validate_joolnlhdr *)
Definition same_version (a b : Z) : bool := a / 65536 =? b / 65536.
Definition validate_joolnlhdr (u : client) (b : list Z) : bool :=
  (if list_eq_dec Z.eq_dec (hdr_magic b) JOOLNL_HDR_MAGIC then true else false) && same_version (u_version u) (hdr_version b) && bit_and (hdr_xt b) (u_xt u).
(** src/usr/nl/core.c:135-167 joolnl_msg2result: the policy is NLA_U16 and NLA_STRING (which in libnl has to end with a null
    character; here, looked at once the table is filled). Without a text, strerror() is what is printed: here, nothing. *)
Definition error_policy : policy := assoc [(JNLAERR_CODE, PU16); (JNLAERR_MSG, PBinary)].
Definition joolnl_msg2result (b : list Z) : rd outcome :=
  match nla_parse_u h JNLAERR_MAX error_policy (skipn 28 b) with
  | Got t =>
    match t JNLAERR_MSG with
    | Some m =>
      if last (a_data m) 1 =? 0
      then match t JNLAERR_CODE with Some c => rbind (nla_get h 2 c) (fun code => Got (Refused code (cstring (a_data m)))) | None => Got Nonsense end
      else Got Nonsense
    | None => match t JNLAERR_CODE with Some c => rbind (nla_get h 2 c) (fun code => Got (Refused code [])) | None => Got Nonsense end
    end
  | _ => Got Nonsense
  end.
(** src/usr/nl/core.c:176-212 response_handler, when there is no function for the contents; src/usr/nl/core.c:224-274 joolnl_request *)
Definition response_handler (u : client) (b : list Z) : rd outcome :=
  if zlen b <? 28 then Got Nonsense
  else if negb (validate_joolnlhdr u b) then Got Nonsense
  else if bit_and (hdr_flags b) FLAGS_ERROR then joolnl_msg2result b
  else Got Success.

(** ** The module *)

Section Kernel.
Context {S I : Type} (K : kernel S I).

(** src/mod/common/nl/nl_common.c:9-14 get_iname *)
Definition get_iname (b : list Z) : name := match cstring (hdr_iname b) with [] => INAME_DEFAULT | n => n end.
(** src/mod/common/nl/nl_common.c:25-71 validate_magic, validate_stateness, validate_version *)
Definition validate_magic (b : list Z) : bool := if list_eq_dec Z.eq_dec (hdr_magic b) JOOLNL_HDR_MAGIC then true else false.
Definition validate_stateness (b : list Z) : bool :=
  if hdr_xt b =? XT_SIIT then k_siit K else if hdr_xt b =? XT_NAT64 then k_nat64 K else false.
Definition validate_version (b : list Z) : bool := same_version (k_version K) (hdr_version b).
(** src/mod/common/nl/nl_common.c:73-118 request_handle_start, with a network administrator's rights or not *)
Definition request_handle_start (admin : bool) (b : list Z) (xt : Z) (s : S) : errno + I :=
  if negb admin then inl EPERM
  else if negb (validate_magic b) then inl EINVAL
  else if negb (validate_stateness b) then inl EINVAL
  else if negb (validate_version b) then inl EINVAL
  else if negb (bit_and (hdr_xt b) xt) then inl EINVAL
  else k_find K (get_iname b) (hdr_xt b) s.

(** src/mod/common/nl/nl_handler.c:44-58 jool_policy *)
Definition jool_policy : policy :=
  assoc [(JNLAR_ADDR_QUERY, PBinary); (JNLAR_GLOBALS, PNested); (JNLAR_BL4_ENTRIES, PNested); (JNLAR_EAMT_ENTRIES, PNested);
         (JNLAR_POOL4_ENTRIES, PNested); (JNLAR_BIB_ENTRIES, PNested); (JNLAR_SESSION_ENTRIES, PNested); (JNLAR_OFFSET, PNested);
         (JNLAR_OFFSET_U8, PU8); (JNLAR_OPERAND, PNested); (JNLAR_PROTO, PU8); (JNLAR_ATOMIC_INIT, PU8); (JNLAR_ATOMIC_END, PBinary)].

(** What a handler makes of an attribute it could not read: it answers the error. *)
Definition reading {A} (r : rd A) (s : S) (f : A -> rd (rc * S)) : rd (rc * S) :=
  match r with Got a => f a | Bad e => Got (Err e, s) | Stray => Stray end.
Definition forced (b : list Z) : bool := bit_and (hdr_flags b) FLAGS_FORCE.
Definition quick (b : list Z) : bool := bit_and (hdr_flags b) FLAGS_QUICK.

(** src/mod/common/nl/eam.c:66-88 handle_eamt_add *)
Definition handle_eamt_add (b : list Z) (t : table) (i : I) (s : S) : rd (rc * S) :=
  reading (jnla_get_eam h (t JNLAR_OPERAND)) s (fun e => match e with EEam p6 p4 => Got (k_eamt_add K i p6 p4 (forced b) s) | _ => Stray end).
(** src/mod/common/nl/eam.c:90-138 handle_eamt_rm *)
Definition handle_eamt_rm (b : list Z) (t : table) (i : I) (s : S) : rd (rc * S) :=
  match t JNLAR_OPERAND with
  | None => Got (Err EINVAL, s)
  | Some a =>
    reading (nla_parse_nested_k h JNLAE_MAX a eam_policy) s (fun t =>
    match t JNLAE_PREFIX6, t JNLAE_PREFIX4 with
    | None, None => Got (Err ENOENT, s)
    | a6, a4 =>
      reading (match a6 with Some _ => rbind (jnla_get_prefix6 h a6) (fun p => Got (Some p)) | None => Got None end) s (fun p6 =>
      reading (match a4 with Some _ => rbind (jnla_get_prefix4 h a4) (fun p => Got (Some p)) | None => Got None end) s (fun p4 =>
      Got (k_eamt_rm K i p6 p4 s)))
    end)
  end.
(** src/mod/common/nl/eam.c:140-156 handle_eamt_flush *)
Definition handle_eamt_flush (b : list Z) (t : table) (i : I) (s : S) : rd (rc * S) := Got (OK, k_eamt_flush K i s).
(** src/mod/common/nl/denylist4.c:62-86 handle_denylist4_add *)
Definition handle_denylist4_add (b : list Z) (t : table) (i : I) (s : S) : rd (rc * S) :=
  reading (jnla_get_prefix4 h (t JNLAR_OPERAND)) s (fun p => Got (k_deny_add K i p (forced b) s)).
(** src/mod/common/nl/denylist4.c:88-109 handle_denylist4_rm *)
Definition handle_denylist4_rm (b : list Z) (t : table) (i : I) (s : S) : rd (rc * S) :=
  reading (jnla_get_prefix4 h (t JNLAR_OPERAND)) s (fun p => Got (k_deny_rm K i p s)).
(** src/mod/common/nl/denylist4.c:111-126 handle_denylist4_flush *)
Definition handle_denylist4_flush (b : list Z) (t : table) (i : I) (s : S) : rd (rc * S) := Got (k_deny_flush K i s).
(** src/mod/common/nl/pool4.c:76-98 handle_pool4_add *)
Definition handle_pool4_add (b : list Z) (t : table) (i : I) (s : S) : rd (rc * S) :=
  reading (jnla_get_pool4 h (t JNLAR_OPERAND)) s (fun e => Got (k_pool4_add K i e (forced b) s)).
(** src/mod/common/db/pool4/db.c:798-802: what pool4db_rm() leaves in the range it is given *)
Definition ports_left (p : prefix4) (ports : Z * Z) : Z * Z :=
  match prefix4_validate p with
  | Err _ => ports
  | OK => if fst ports >? snd ports then (snd ports, fst ports) else ports
  end.
(** src/mod/common/nl/pool4.c:108-132 handle_pool4_rm *)
Definition handle_pool4_rm (b : list Z) (t : table) (i : I) (s : S) : rd (rc * S) :=
  reading (jnla_get_pool4 h (t JNLAR_OPERAND)) s (fun e =>
  let (r, s) := k_pool4_rm K i e s in
  match e with
  | EPool4 _ _ _ proto p ports => Got (r, if quick b then s else k_bib_rm_range K i proto p (ports_left p ports) s)
  | _ => Stray
  end).
(** src/mod/common/nl/pool4.c:134-158 handle_pool4_flush *)
Definition handle_pool4_flush (b : list Z) (t : table) (i : I) (s : S) : rd (rc * S) :=
  let s := k_pool4_flush K i s in Got (OK, if quick b then s else k_bib_flush K i s).
(** src/mod/common/nl/bib.c:66-94 handle_bib_add *)
Definition handle_bib_add (b : list Z) (t : table) (i : I) (s : S) : rd (rc * S) :=
  reading (jnla_get_bib h (t JNLAR_OPERAND)) s (fun e =>
  match e with
  | EBib a6 a4 proto static => if k_pool4_contains K i proto a4 s then Got (k_bib_add K i e s) else Got (Err EINVAL, s)
  | _ => Stray
  end).
(** src/mod/common/nl/bib.c:96-162 handle_bib_rm. Without a protocol, what is used as one was never initialized. *)
Definition handle_bib_rm (b : list Z) (t : table) (i : I) (s : S) : rd (rc * S) :=
  match t JNLAR_OPERAND with
  | None => Got (Err EINVAL, s)
  | Some a =>
    reading (nla_parse_nested_k h JNLAB_MAX a bib_policy) s (fun t =>
    match t JNLAB_SRC6, t JNLAB_SRC4 with
    | None, None => Got (Err EINVAL, s)
    | a6, a4 =>
      reading (match a6 with Some _ => rbind (jnla_get_taddr6 h a6) (fun x => Got (Some x)) | None => Got None end) s (fun a6 =>
      reading (match a4 with Some _ => rbind (jnla_get_taddr4 h a4) (fun x => Got (Some x)) | None => Got None end) s (fun a4 =>
      reading (nla_get_ptr h 1 (t JNLAB_PROTO)) s (fun proto =>
      match a6, a4 with
      | Some a6, Some a4 => Got (k_bib_rm K i proto a6 a4 s)
      | Some a6, None => match k_bib_find6 K i proto a6 s with inr (a6, a4) => Got (k_bib_rm K i proto a6 a4 s) | inl e => Got (Err e, s) end
      | None, Some a4 => match k_bib_find4 K i proto a4 s with inr (a6, a4) => Got (k_bib_rm K i proto a6 a4 s) | inl e => Got (Err e, s) end
      | None, None => Stray (* does not happen *)
      end)))
    end)
  end.

(** src/common/config.c:83-127 siit_globals_policy, nat64_globals_policy *)
Definition globals_policy (xt : Z) : policy := fun id =>
  match Glob_Model.policy xt id with Some NLA_U8 => PU8 | Some NLA_U32 => PU32 | Some NLA_NESTED => PNested | None => PUnspec end.
(** src/common/global.c:122-286, the nl2raw functions: what they read from the attribute *)
Definition read_setting (xt id : Z) (a : attr) : rd gval :=
  if (id =? JNLAG_POOL6) || (id =? JNLAG_POOL6791V6) then
    rbind (jnla_get_prefix6_optional h (Some a)) (fun p => Got match p with Some p => VPrefix6 (Some (p6_len p)) (Some (p6_addr p)) | None => VPrefix6 (Some 0) None end)
  else if id =? JNLAG_POOL6791V4 then
    rbind (jnla_get_prefix4_optional h (Some a)) (fun p => Got match p with Some p => VPrefix4 (Some (p4_len p)) (Some (p4_addr p)) | None => VPrefix4 (Some 0) None end)
  else if id =? JNLAG_PLATEAUS then rbind (jnla_get_plateau_values h (Some a)) (fun l => Got (VPlateaus l))
  else match globals_policy xt id with
       | PU32 => rbind (nla_get h 4 a) (fun v => Got (VU32 v))
       | _ => rbind (nla_get h 1 a) (fun v => Got (VU8 v))
       end.
(** src/mod/common/nl/global.c:162-174 global_update, the loop *)
Fixpoint update_each_octets (force : bool) (xt : Z) (t : table) (metas : list (Z * Z)) (g : globals) : rd (rc * globals) :=
  match metas with
  | [] => Got (OK, g)
  | (id, mxt) :: metas =>
    if negb (bit_and mxt xt) then update_each_octets force xt t metas g
    else match t id with
         | None => update_each_octets force xt t metas g
         | Some a => match read_setting xt id a with
                     | Got v => match nl2raw force id v g with
                                | (OK, g) => update_each_octets force xt t metas g
                                | r => Got r
                                end
                     | Bad e => Got (Err e, g)
                     | Stray => Stray
                     end
         end
  end.
(** src/mod/common/nl/global.c:137-177 global_update *)
Definition global_update_octets (g : globals) (xt : Z) (force : bool) (root : attr) : rd (rc * globals) :=
  if (xt =? XT_SIIT) || (xt =? XT_NAT64) then
    match nla_parse_nested_k h 32 root (globals_policy xt) with
    | Got t => update_each_octets force xt t metadata g
    | Bad e => Got (Err e, g)
    | Stray => Stray
    end
  else Got (Err EINVAL, g).
(** src/mod/common/nl/global.c:58-135 handle_global_update *)
Definition handle_global_update_octets (b : list Z) (t : table) (i : I) (s : S) : rd (rc * S) :=
  match t JNLAR_GLOBALS with
  | None => Got (Err EINVAL, s)
  | Some root =>
    match global_update_octets (k_globals K i s) (hdr_xt b) (forced b) root with
    | Got (OK, g) => Got (k_replace K i g s)
    | Got (Err e, _) => Got (Err e, s)
    | Bad e => Got (Err e, s)
    | Stray => Stray
    end
  end.

(** src/mod/common/nl/nl_handler.c:66-188 ops; and the type of instances that each handler names *)
Definition handler_of (o : operation) : Z * (list Z -> table -> I -> S -> rd (rc * S)) :=
  match o with
  | JNLOP_GLOBAL_UPDATE => (XT_ANY, handle_global_update_octets)
  | JNLOP_EAMT_ADD => (XT_SIIT, handle_eamt_add)
  | JNLOP_EAMT_RM => (XT_SIIT, handle_eamt_rm)
  | JNLOP_EAMT_FLUSH => (XT_SIIT, handle_eamt_flush)
  | JNLOP_BL4_ADD => (XT_SIIT, handle_denylist4_add)
  | JNLOP_BL4_RM => (XT_SIIT, handle_denylist4_rm)
  | JNLOP_BL4_FLUSH => (XT_SIIT, handle_denylist4_flush)
  | JNLOP_POOL4_ADD => (XT_NAT64, handle_pool4_add)
  | JNLOP_POOL4_RM => (XT_NAT64, handle_pool4_rm)
  | JNLOP_POOL4_FLUSH => (XT_NAT64, handle_pool4_flush)
  | JNLOP_BIB_ADD => (XT_NAT64, handle_bib_add)
  | JNLOP_BIB_RM => (XT_NAT64, handle_bib_rm)
  end.
(** Generic Netlink checks the length and the attributes ([Bad]: it answers by itself, the module is not called), and calls the handler. *)
Definition serve (admin : bool) (o : operation) (b : list Z) (s : S) : rd (rc * S) :=
  if zlen b <? 28 then Bad EINVAL
  else
    rbind (nla_parse_k h JNLAR_MAX jool_policy (skipn 28 b)) (fun t =>
    let (xt, handler) := handler_of o in
    match request_handle_start admin b xt s with
    | inl e => Got (Err e, s)
    | inr i => handler b t i s
    end).

(** The module's side of an answer: the size of its messages, whether it gets memory, and the text that log_err() has collected *)
Record answering := Answering { a_cap : Z; a_mem : bool; a_text : list Z }.
(** Linux's error numbers *)
Definition errcode (e : errno) : Z :=
  match e with EPERM => 1 | ENOENT => 2 | ESRCH => 3 | E2BIG => 7 | EAGAIN => 11 | ENOMEM => 12 | EEXIST => 17 | EINVAL => 22 | ENOSPC => 28 end.
(** src/mod/common/nl/nl_core.c:23-43 jresponse_init: the request's header is copied. *)
Definition jresponse_init (w : answering) (b : list Z) : option (list Z) :=
  if negb (a_mem w) || (a_cap w <? 28) then None else Some (firstn 28 b).
Definition set_flag (b : list Z) (f : Z) : list Z := firstn 9 b ++ u8 (Z.lor (nth 9 b 0) f) :: skipn 10 b.
(** src/mod/common/nl/nl_core.c:98-148 jresponse_send_simple *)
Definition jresponse_send_simple (w : answering) (b : list Z) (r : rc) : option (list Z) :=
  match jresponse_init w b with
  | None => None
  | Some b =>
    match r with
    | OK => Some b
    | Err e =>
      match nla_put_u16 h (a_cap w) JNLAERR_CODE (errcode e) (set_flag b FLAGS_ERROR) with
      | NoRoom _ => None
      | Put b =>
        match nla_put h (a_cap w) JNLAERR_MSG (a_text w ++ [0]) b with
        | Put b => Some b
        | NoRoom _ => match nla_put h (a_cap w) JNLAERR_MSG (firstn 128 (a_text w) ++ [0]) b with Put b => Some b | NoRoom _ => None end
        end
      end
    end
  end.

(** ** From one end to the other *)

Definition request (u : client) (w : answering) (admin : bool) (n : option name) (c : command) (s : S) : rd (outcome * S) :=
  match client_request u n c with
  | None => Got (Unsent, s)
  | Some (o, b) =>
    match serve admin o b s with
    | Stray => Stray
    | Bad _ => Got (NoAnswer, s)
    | Got (r, s) =>
      match jresponse_send_simple w b r with
      | None => Got (NoAnswer, s)
      | Some a => rbind (response_handler u a) (fun o => Got (o, s))
      end
    end
  end.
End Kernel.
End Requests.
