(** The listings ("jool eamt display" and the like), from the function of the
    client's library to the tables and back, on octets: the foreach functions of
    src/usr/nl/{eamt,denylist4,pool4,bib,session,global}.c, src/usr/nl/common.c,
    the foreach handlers of src/mod/common/nl/{eam,denylist4,pool4,bib,session,global}.c
    and jresponse_send_array(). Headers, instances and answers to errors are in
    [Req_Model].

    The tables are parameters ([tables]): the entries past an offset, in order, of a
    database's foreach function. What the user's callback does is to keep the
    entries it is given; it does not fail. *)
Require Import Verif.Base Verif.Addr_Model Verif.Pool4_Model Verif.Bib_Model Verif.Glob_Model Verif.Inst_Model Verif.File_Model Verif.Nla_Model Verif.Req_Model.

(** src/common/config.h:274-280 JOOLNLHDR_FLAGS_M *)
Definition FLAGS_M : Z := 8.

(** src/common/config.h:23-64 enum joolnl_operation: JNLOP_EAMT_FOREACH, JNLOP_BL4_FOREACH, JNLOP_POOL4_FOREACH, JNLOP_BIB_FOREACH,
    JNLOP_SESSION_FOREACH, JNLOP_GLOBAL_FOREACH; with the protocol that the function is called with *)
Inductive listing := LEamt | LDeny | LPool4 (proto : Z) | LBib (proto : Z) | LSession (proto : Z) | LGlobals.
(** What is listed *)
Inductive item := IEntry (e : entry) | ISession (s : usession) | ISetting (id : Z) (v : gval).

(** The foreach functions of the databases. Each session comes with its timer's number. *)
Record tables (S I : Type) := Tables {
  t_eamt : I -> option prefix4 -> S -> errno + list (prefix6 * prefix4); (* eamt_foreach() *)
  t_deny : I -> option prefix4 -> S -> errno + list prefix4; (* denylist4_foreach() *)
  t_pool4 : I -> Z -> option entry -> S -> errno + list entry; (* pool4db_foreach_sample() *)
  t_bib : I -> Z -> option (Z * Z) -> S -> errno + list entry; (* bib_foreach() *)
  t_session : I -> Z -> option ((Z * Z) * (Z * Z)) -> S -> errno + list (usession * Z) (* bib_foreach_session() *)
}.
Arguments t_eamt {S I}. Arguments t_deny {S I}. Arguments t_pool4 {S I}. Arguments t_bib {S I}. Arguments t_session {S I}.

Section Listings.
Context (h : host).

(** ** The client asks *)

(** The operation is the listing; the attributes, given the last entry shown: src/usr/nl/eamt.c:58-68 joolnl_eamt_foreach,
    src/usr/nl/denylist4.c:58-68 joolnl_denylist4_foreach, src/usr/nl/pool4.c:59-70 joolnl_pool4_foreach,
    src/usr/nl/bib.c:58-69 joolnl_bib_foreach, src/usr/nl/session.c:59-69 joolnl_session_foreach, src/usr/nl/global.c:77-84 joolnl_global_foreach *)
Definition ask (cap : Z) (l : listing) (last : option item) : list Z -> put :=
  match l, last with
  | (LEamt | LDeny), None => done
  | LEamt, Some (IEntry (EEam _ p4)) => nla_put_prefix4 h cap JNLAR_OFFSET (Some p4)
  | LDeny, Some (IEntry (EDeny p)) => nla_put_prefix4 h cap JNLAR_OFFSET (Some p)
  | (LPool4 proto | LBib proto), None => nla_put_u8 h cap JNLAR_PROTO proto
  | (LPool4 _ | LBib _), Some (IEntry e) => put_entry_u h cap JNLAR_OFFSET e
  | LSession proto, None => nla_put_u8 h cap JNLAR_PROTO proto
  | LSession proto, Some (ISession s) =>
      andthen (nla_put_u8 h cap JNLAR_PROTO proto)
              (nla_put_session h cap JNLAR_OFFSET (us_src6 s) (us_dst6 s) (us_src4 s) (us_dst4 s) (us_proto s) (us_state s) (us_dying s))
  | LGlobals, None => done
  | LGlobals, Some (ISetting id _) => if id =? 0 then done else nla_put_u8 h cap JNLAR_OFFSET_U8 id
  | _, Some _ => done (* does not happen *)
  end.

(** ** The module answers *)

Section Module.
Context {S I : Type} (K : kernel S I) (T : tables S I).

(** What is put in the reply for each thing in the table: an item, and the number of a session's timer *)
Definition numbered (x : item) : item * Z := (x, 0).
(** src/common/global.c:82-120, the raw2nl functions: what each setting is *)
Definition raw2nl (xt id : Z) (g : globals) : gval :=
  if id =? JNLAG_POOL6 then (if set6 (pool6 g) then VPrefix6 (Some (p6_len (pre6 (pool6 g)))) (Some (p6_addr (pre6 (pool6 g)))) else VPrefix6 (Some 0) None)
  else if id =? JNLAG_POOL6791V6 then (if set6 (p6791v6 g) then VPrefix6 (Some (p6_len (pre6 (p6791v6 g)))) (Some (p6_addr (pre6 (p6791v6 g)))) else VPrefix6 (Some 0) None)
  else if id =? JNLAG_POOL6791V4 then (if set4 (p6791v4 g) then VPrefix4 (Some (p4_len (pre4 (p6791v4 g)))) (Some (p4_addr (pre4 (p6791v4 g)))) else VPrefix4 (Some 0) None)
  else if id =? JNLAG_PLATEAUS then VPlateaus (firstn (Z.to_nat (count (plateaus g))) (values (plateaus g)))
  else match Glob_Model.policy xt id with Some NLA_U32 => VU32 (num g id) | _ => VU8 (num g id) end.
(** src/mod/common/db/global.c:124-148 globals_foreach: those that are visited *)
Fixpoint settings_from (xt : Z) (metas : list (Z * Z)) (offset : Z) (g : globals) : list item :=
  match metas with
  | [] => []
  | (id, mxt) :: metas =>
    if negb (bit_and mxt xt) then settings_from xt metas offset g
    else if negb (offset =? 0) then settings_from xt metas (if id =? offset then 0 else offset) g
    else ISetting id (raw2nl xt id g) :: settings_from xt metas 0 g
  end.

(** src/mod/common/nl/session.c:10-34 parse_offset: an address that is not there is zero *)
Definition parse_offset (a : attr) : rd ((Z * Z) * (Z * Z)) :=
  rbind (nla_parse_nested_k h JNLASE_MAX a session_policy) (fun t =>
  rbind (match t JNLASE_SRC4 with Some _ => jnla_get_taddr4 h (t JNLASE_SRC4) | None => Got (0, 0) end) (fun src =>
  rbind (match t JNLASE_DST4 with Some _ => jnla_get_taddr4 h (t JNLASE_DST4) | None => Got (0, 0) end) (fun dst => Got (src, dst)))).
(** What a reader's result leads to: [f], or an error *)
Definition found {A} (r : rd A) (f : A -> errno + list (item * Z)) : rd (errno + list (item * Z)) :=
  match r with Got a => Got (f a) | Bad e => Got (inl e) | Stray => Stray end.
Definition all {A} (g : A -> item * Z) (r : errno + list A) : errno + list (item * Z) := match r with inl e => inl e | inr l => inr (map g l) end.

(** src/mod/common/nl/eam.c:33-44 handle_eamt_foreach, src/mod/common/nl/denylist4.c:33-45 handle_denylist4_foreach,
    src/mod/common/nl/pool4.c:33-59 handle_pool4_foreach, src/mod/common/nl/bib.c:33-49 handle_bib_foreach,
    src/mod/common/nl/session.c:59-80 handle_session_foreach, src/mod/common/nl/global.c:34-41 handle_global_foreach:
    the offset is read and the table is visited. *)
Definition visited (l : listing) (xt : Z) (t : table) (i : I) (s : S) : rd (errno + list (item * Z)) :=
  match l with
  | LEamt =>
    found (match t JNLAR_OFFSET with Some _ => rbind (jnla_get_prefix4 h (t JNLAR_OFFSET)) (fun p => Got (Some p)) | None => Got None end)
      (fun off => all (fun e => numbered (IEntry (EEam (fst e) (snd e)))) (t_eamt T i off s))
  | LDeny =>
    found (match t JNLAR_OFFSET with Some _ => rbind (jnla_get_prefix4 h (t JNLAR_OFFSET)) (fun p => Got (Some p)) | None => Got None end)
      (fun off => all (fun p => numbered (IEntry (EDeny p))) (t_deny T i off s))
  | LPool4 _ =>
    match t JNLAR_OFFSET, t JNLAR_PROTO with
    | Some a, _ => found (jnla_get_pool4 h (Some a)) (fun e =>
        match e with
        | EPool4 _ _ _ proto _ _ => all (fun e => numbered (IEntry e)) (t_pool4 T i proto (Some e) s)
        | _ => inl EINVAL (* does not happen *)
        end)
    | None, Some a => found (nla_get h 1 a) (fun proto => all (fun e => numbered (IEntry e)) (t_pool4 T i proto None s))
    | None, None => Got (inl EINVAL)
    end
  | LBib _ =>
    match t JNLAR_OFFSET, t JNLAR_PROTO with
    | Some a, _ => found (jnla_get_bib h (Some a)) (fun e =>
        match e with
        | EBib _ a4 proto _ => all (fun e => numbered (IEntry e)) (t_bib T i proto (Some a4) s)
        | _ => inl EINVAL (* does not happen *)
        end)
    | None, Some a => found (nla_get h 1 a) (fun proto => all (fun e => numbered (IEntry e)) (t_bib T i proto None s))
    | None, None => Got (inl EINVAL)
    end
  | LSession _ =>
    match t JNLAR_PROTO with
    | None => Got (inl EINVAL)
    | Some a =>
      found (rbind (nla_get h 1 a) (fun proto =>
             match t JNLAR_OFFSET with Some a => rbind (parse_offset a) (fun off => Got (proto, Some off)) | None => Got (proto, None) end))
        (fun x => all (fun e => (ISession (fst e), snd e)) (t_session T i (fst x) (snd x) s))
    end
  | LGlobals =>
    found (match t JNLAR_OFFSET_U8 with Some a => nla_get h 1 a | None => Got 0 end)
      (fun off => inr (map numbered (settings_from xt metadata off (k_globals K i s))))
  end.
(** The types of instances that the handlers name *)
Definition listed_of (l : listing) : Z := match l with LEamt | LDeny => XT_SIIT | LPool4 _ | LBib _ | LSession _ => XT_NAT64 | LGlobals => XT_ANY end.

(** src/mod/common/nl/eam.c:11-14 serialize_eam_entry, src/mod/common/nl/denylist4.c:11-14 serialize_bl4_entry, src/mod/common/nl/pool4.c:11-14 serialize_pool4_entry,
    src/mod/common/nl/bib.c:11-14 serialize_bib_entry, src/mod/common/nl/session.c:36-39 serialize_session_entry, src/mod/common/nl/global.c:11-15 serialize_global *)
Definition serialize (cap : Z) (x : item * Z) : list Z -> put :=
  match fst x with
  | IEntry e => put_entry_k h cap JNLAL_ENTRY e
  | ISession s => jnla_put_session h cap JNLAL_ENTRY (us_src6 s) (us_dst6 s) (us_src4 s) (us_dst4 s) (us_proto s) (us_state s) (snd x) (us_dying s)
  | ISetting id v =>
    match v with
    | VU8 v => nla_put_u8 h cap id v
    | VU32 v => nla_put_u32 h cap id v
    | VPlateaus l => jnla_put_plateaus h cap id l
    | VPrefix6 len addr => jnla_put_prefix6 h cap id match len, addr with Some len, Some addr => Some (P6 addr len) | _, _ => None end
    | VPrefix4 len addr => jnla_put_prefix4 h cap id match len, addr with Some len, Some addr => Some (P4 addr len) | _, _ => None end
    end
  end.
(** The visit stops at the first thing that does not fit (1 is returned). The reply, and whether that happened *)
Fixpoint serialize_each (cap : Z) (l : list (item * Z)) (b : list Z) : list Z * bool :=
  match l with
  | [] => (b, false)
  | x :: l => match serialize cap x b with Put b => serialize_each cap l b | NoRoom b => (b, true) end
  end.
(** src/mod/common/nl/nl_core.c:71-96 jresponse_send_array, and the ends of the handlers *)
Definition jresponse_send_array (w : answering) (req : list Z) (b : list Z) (r : errno + list (item * Z)) : option (list Z) :=
  match r with
  | inl e => jresponse_send_simple h w req (Err e)
  | inr l =>
    let (b', full) := serialize_each (a_cap w) l b in
    if full then
      (if (length b' =? length b)%nat then jresponse_send_simple h w req (Err EINVAL) else Some (set_flag b' FLAGS_M))
    else Some b'
  end.
(** The handlers: [Bad], [None]: there is no answer of Jool's. *)
Definition serve_list (w : answering) (admin : bool) (l : listing) (b : list Z) (s : S) : rd (option (list Z)) :=
  if zlen b <? 28 then Bad EINVAL
  else
    rbind (nla_parse_k h JNLAR_MAX jool_policy (skipn 28 b)) (fun t =>
    match request_handle_start K admin b (listed_of l) s with
    | inl e => Got (jresponse_send_simple h w b (Err e))
    | inr i =>
      match jresponse_init w b with
      | None => Got (jresponse_send_simple h w b (Err ENOMEM))
      | Some reply => rbind (visited l (hdr_xt b) t i s) (fun r => Got (jresponse_send_array w b reply r))
      end
    end).
End Module.

(** ** The client is answered *)

(** src/common/global.c:705-1037 globals_metadata, the types: gt_uint8 and those with the same functions *)
Definition is_u8_setting (id : Z) : bool := (id =? JNLAG_TOS) || (id =? JNLAG_HAIRPIN_MODE) || (id =? JNLAG_F_ARGS).
Definition is_u32_setting (id : Z) : bool := existsb (Z.eqb id) [3; 20; 21; 22; 23; 26; 29; 30; 31; 32].
(** src/common/global.c:408-466, the nl2raw functions of the client; src/common/global.c:1041-1061 joolnl_global_id2meta *)
Definition nl2raw_u (id : Z) (a : attr) : rd gval :=
  if (id =? JNLAG_POOL6) || (id =? JNLAG_POOL6791V6) then
    match nla_get_prefix6 h (Some a) with Got p => Got (VPrefix6 (Some (p6_len p)) (Some (p6_addr p))) | Bad ENOENT => Got (VPrefix6 (Some 0) None) | Bad e => Bad e | Stray => Stray end
  else if id =? JNLAG_POOL6791V4 then
    match nla_get_prefix4 h (Some a) with Got p => Got (VPrefix4 (Some (p4_len p)) (Some (p4_addr p))) | Bad ENOENT => Got (VPrefix4 (Some 0) None) | Bad e => Bad e | Stray => Stray end
  else if id =? JNLAG_PLATEAUS then rbind (nla_get_plateaus h a) (fun l => Got (VPlateaus l))
  else if is_u32_setting id then rbind (nla_get h 4 a) (fun v => Got (VU32 v))
  else if is_u8_setting id then rbind (nla_get h 1 a) (fun v => Got (VU8 v))
  else rbind (nla_get h 1 a) (fun v => Got (VU8 (if v =? 0 then 0 else 1))).
(** What is read from each attribute: src/usr/nl/eamt.c:29, src/usr/nl/denylist4.c:29, src/usr/nl/pool4.c:29, src/usr/nl/bib.c:29,
    src/usr/nl/session.c:29, src/usr/nl/global.c:42-52 handle_foreach_response.
    [None]: a setting that the client does not know, skipped. *)
Definition read_item (l : listing) (a : attr) : rd (option item) :=
  match l with
  | LEamt => rbind (get_entry_u h TEamt a) (fun e => Got (Some (IEntry e)))
  | LDeny => rbind (get_entry_u h TDenylist4 a) (fun e => Got (Some (IEntry e)))
  | LPool4 _ => rbind (get_entry_u h TPool4 a) (fun e => Got (Some (IEntry e)))
  | LBib _ => rbind (get_entry_u h TBib a) (fun e => Got (Some (IEntry e)))
  | LSession _ => rbind (nla_get_session h a) (fun s => Got (Some (ISession s)))
  | LGlobals => let id := nla_type a in if (id <? 1) || (32 <? id) then Got None else rbind (nl2raw_u id a) (fun v => Got (Some (ISetting id v)))
  end.

(** How a listing ends: completely, with an error, or not within the requests considered *)
Inductive ending := Complete | Failed (o : outcome) | Pending.

(** The loops of handle_foreach_response: the items shown, and whether one could not be read. (What was shown remains shown.) *)
Fixpoint read_items (l : listing) (attrs : list attr) : rd (list item * bool) :=
  match attrs with
  | [] => Got ([], true)
  | a :: attrs =>
    match read_item l a with
    | Got x => rbind (read_items l attrs) (fun r => Got (match x with Some x => x :: fst r | None => fst r end, snd r))
    | Bad _ => Got ([], false)
    | Stray => Stray
    end
  end.
(** src/usr/nl/core.c:176-212 response_handler with handle_foreach_response; src/usr/nl/common.c:17-55 joolnl_init_foreach, joolnl_init_foreach_list.
    The items shown, and: [None]: there are more *)
Definition foreach_response (u : client) (l : listing) (b : list Z) : rd (list item * option ending) :=
  if zlen b <? 28 then Got ([], Some (Failed Nonsense))
  else if negb (validate_joolnlhdr u b) then Got ([], Some (Failed Nonsense))
  else if bit_and (hdr_flags b) FLAGS_ERROR then rbind (joolnl_msg2result h b) (fun o => Got ([], Some (Failed o)))
  else
    let data := skipn 28 b in
    match (match l with LGlobals => Got tt | _ => jnla_validate_list h data struct_list_policy end) with
    | Got _ =>
      rbind (read_items l (fst (attributes h data))) (fun r =>
      Got (fst r, if negb (snd r) then Some (Failed Nonsense) else if bit_and (hdr_flags b) FLAGS_M then None else Some Complete))
    | Bad _ => Got ([], Some (Failed Nonsense))
    | Stray => Stray
    end.

Section Loop.
Context {S I : Type} (K : kernel S I) (T : tables S I).
(** The loops of the foreach functions, as above. [states]: what the module finds at each request. [at_last]: the last item read. Once a request has been
    answered with no items, a setting's number stays what it was; the others would send what memset() left: the module does not say that
    there are more without sending any (see the properties), so that [at_last] stays here too. *)
Fixpoint foreach (u : client) (w : answering) (admin : bool) (n : option name) (l : listing) (at_last : option item) (states : list S) : rd (list item * ending) :=
  match states with
  | [] => Got ([], Pending)
  | s :: states =>
    match joolnl_alloc_msg u n 0 with
    | None => Got ([], Failed Unsent)
    | Some b =>
      match ask (u_cap u) l at_last b with
      | NoRoom _ => Got ([], Failed Unsent)
      | Put b =>
        match serve_list K T w admin l b s with
        | Stray => Stray
        | Bad _ | Got None => Got ([], Failed NoAnswer)
        | Got (Some a) =>
          match foreach_response u l a with
          | Stray => Stray
          | Bad _ => Got ([], Failed Nonsense)
          | Got (shown, Some e) => Got (shown, e)
          | Got (shown, None) =>
            rbind (foreach u w admin n l (match rev shown with x :: _ => Some x | [] => at_last end) states) (fun r => Got (shown ++ fst r, snd r))
          end
        end
      end
    end
  end.
End Loop.
End Listings.
