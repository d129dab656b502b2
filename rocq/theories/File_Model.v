(** Reading a configuration file.
    Sources: src/usr/nl/file.c, src/usr/nl/json.c, src/usr/util/file.c, the JSON
    functions of src/common/global.c, src/usr/nl/core.c (joolnl_alloc_msg, joolnl_request).

    What is sent to the kernel are the messages of [Inst_Model], with the entries
    below in place of their attributes: Netlink's encoding is left out, but not its
    limits: whether something still fits in a message is asked of the environment.
    nla_nest_end() drops nested attributes that are empty (libnl).  Error messages
    are left out, and memory for them; the memory that is leaked too. *)
Require Import Verif.Base Verif.Addr_Model Verif.Glob_Model Verif.Inst_Model Verif.Str_Model Verif.Json_Model.
Require Import String Ascii.
Local Open Scope Z_scope.
Local Open Scope list_scope.

(** A literal's octets *)
Fixpoint txt (s : string) : list Z := match s with EmptyString => [] | String c t => Z.of_nat (nat_of_ascii c) :: txt t end.

(** src/common/types.h:180-240 struct eamt_entry, pool4_entry, bib_entry *)
Inductive entry :=
| EEam (p6 : prefix6) (p4 : prefix4)
| EDeny (p : prefix4)
| EPool4 (mark iterations flags proto : Z) (p : prefix4) (ports : Z * Z)
| EBib (a6 a4 : Z * Z) (proto : Z) (static : bool).

(** What can go wrong: something in the file; -NLE_NOMEM, a message is full; no
    memory; the kernel's answer, or that there is none; a variable without a value is used. *)
Inductive ferr := Bad | NoRoom | NoMem | Kernel (e : errno) | Uninitialised.
(** struct jool_result: [None] is success. *)
Definition fr := option ferr.

(** The environment of the program: the library's address functions; what fits;
    which allocations succeed; what the kernel answers to the last of the messages so far. *)
Record uenv := UEnv {
  u_inet : inet;
  u_nest : bool;                                          (* a nested attribute in an empty message *)
  u_entry : list entry -> entry -> bool;                  (* one more entry *)
  u_setting : list (Z * gval) -> Z * gval -> bool;        (* one more setting *)
  u_ctrl : bool;                                          (* an attribute of an octet in an empty message *)
  u_mem : nat -> bool;
  u_kernel : list (message (E := entry)) -> rc;
}.
(** What has been sent, and how many allocations there have been. *)
Record world := World { sent : list (message (E := entry)); allocs : nat }.

(** ** Objects *)
Section Object.
Context {S : Type}.
(** file.c:33-41 struct json_meta, without already_found. What the handler does depends
    on, and changes, the [S]. *)
Record meta := Meta { mt_name : list Z; mt_handler : json -> S -> fr * S; mt_mandatory : bool }.

(** file.c:88-106 handle_child, the loop *)
Fixpoint handle_tag (key : list Z) (v : json) (ms : list meta) (found : list bool) (s : S) : (fr * S) * list bool :=
  match ms, found with
  | m :: ms, f :: fs =>
    if case_eqb key (mt_name m) then
      if f then ((Some Bad, s), f :: fs) else (mt_handler m v s, true :: fs)
    else let (r, fs) := handle_tag key v ms fs s in (r, f :: fs)
  | _, _ => ((Some Bad, s), [])
  end.
(** file.c:88-106 handle_child *)
Definition handle_child (key : list Z) (v : json) (ms : list meta) (found : list bool) (s : S) : (fr * S) * list bool :=
  if case_eqb key (txt "comment") then ((None, s), found) else handle_tag key v ms found s.
(** file.c:108-128 handle_object, the first loop *)
Fixpoint children (l : list (list Z * json)) (ms : list meta) (found : list bool) (s : S) : (fr * S) * list bool :=
  match l with
  | [] => ((None, s), found)
  | (key, v) :: l =>
    match handle_child key v ms found s with
    | ((None, s), found) => children l ms found s
    | r => r
    end
  end.
Fixpoint missing (ms : list meta) (found : list bool) : bool :=
  match ms, found with
  | m :: ms, f :: fs => (mt_mandatory m && negb f) || missing ms fs
  | _, _ => false
  end.
(** file.c:108-128 handle_object *)
Definition handle_object (v : json) (ms : list meta) (s : S) : fr * S :=
  match v with
  | JObj l =>
    match children l ms (map (fun _ => false) ms) s with
    | ((None, s), found) => if missing ms found then (Some Bad, s) else (None, s)
    | ((Some e, s), _) => (Some e, s)
    end
  | _ => (Some Bad, s)
  end.
End Object.
Arguments meta : clear implicits.
Arguments Meta {S}.

Section File.
Context (U : uenv).
Notation N := (u_inet U).
Notation msg := (message (E := entry)).

(** ** Messages *)

(** src/usr/nl/core.c:33-68 joolnl_alloc_msg. The name has been checked before. *)
Definition alloc_msg (w : world) : fr * world :=
  (if u_mem U (allocs w) then None else Some NoMem, World (sent w) (S (allocs w))).
(** src/usr/nl/core.c:224-274 joolnl_request *)
Definition request (m : msg) (w : world) : fr * world :=
  let w := World (sent w ++ [m]) (allocs w) in
  (match u_kernel U (sent w) with OK => None | Err e => Some (Kernel e) end, w).

(** What all the messages of a file have in common: the translator's type, the name
    of the instance and the flag. *)
Record about := About { a_xt : Z; a_name : name; a_force : bool }.
Definition a_msg (a : about) (force : bool) (i : option Z) (g : option (list (Z * gval))) (k : option (kind * list entry)) (e : bool) : msg :=
  let on j := match k with Some (k, l) => match k, j with
                | Denylist4, Denylist4 | Eamt, Eamt | Pool4, Pool4 | Bib, Bib => Some l
                | _, _ => None end | None => None end in
  Msg (a_xt a) (a_name a) force i g (on Denylist4) (on Eamt) (on Pool4) (on Bib) e.
Definition entries_msg (a : about) (k : kind) (l : list entry) : msg := a_msg a (a_force a) None None (Some (k, l)) false.

(** ** Arrays *)

(** One turn of the loop of file.c:143-175: a message to put the entry in, if there is
    none; the entry; if it does not fit, the message is to be sent. *)
Inductive turn := TPut (l : list entry) | TFull (l : list entry) | TErr (e : ferr).
Definition try_entry (h : json -> ferr + entry) (v : json) (cur : option (list entry)) (w : world) : turn * world :=
  let '(r, l, w) :=
    match cur with
    | Some l => (None, l, w)
    | None => match alloc_msg w with
              | (Some e, w) => (Some e, [], w)
              | (None, w) => (if u_nest U then None else Some NoRoom, [], w)
              end
    end in
  match r with
  | Some e => (TErr e, w)
  | None =>
    match h v with
    | inl e => (TErr e, w)
    | inr x => if u_entry U l x then (TPut (l ++ [x]), w)
               else match l with [] => (TErr NoRoom, w) | _ => (TFull l, w) end
    end
  end.
(** file.c:143-181, the loop and what follows. [cur]: the message that is being written. *)
Fixpoint array_loop (a : about) (k : kind) (h : json -> ferr + entry) (l : list json) (cur : option (list entry)) (w : world) : fr * world :=
  match l with
  | [] => match cur with
          | Some (x :: xs) => request (entries_msg a k (x :: xs)) w
          | _ => (None, w)
          end
  | v :: l =>
    match try_entry h v cur w with
    | (TPut c, w) => array_loop a k h l (Some c) w
    | (TErr e, w) => (Some e, w)
    | (TFull c, w) =>
      match request (entries_msg a k c) w with
      | (Some e, w) => (Some e, w)
      | (None, w) =>
        (* json = json->prev: once more, with a new message *)
        match try_entry h v None w with
        | (TPut c, w) => array_loop a k h l (Some c) w
        | (TErr e, w) => (Some e, w)
        | (TFull _, w) => (Some NoRoom, w) (* does not happen *)
        end
      end
    end
  end.
(** file.c:130-187 handle_array *)
Definition handle_array (a : about) (k : kind) (h : json -> ferr + entry) (v : json) (w : world) : fr * world :=
  match v with
  | JArr l => array_loop a k h l None w
  | _ => (Some Bad, w)
  end.

(** ** Fields *)

(** src/usr/nl/json.c:80-95 validate_uint *)
Definition validate_uint (v : json) (min max : Z) : option Z :=
  match v with
  | JNum neg m e => match num_uint neg m e with
                    | Some u => if (u <? min) || (max <? u) then None else Some u
                    | None => None
                    end
  | _ => None
  end.
Definition MAX_U32 : Z := 2 ^ 32 - 1.
(** A field of the structure [S]: how it is set. *)
Definition field {S A} (get : json -> option A) (put : A -> S -> S) (v : json) (s : S) : fr * S :=
  match get v with Some x => (None, put x s) | None => (Some Bad, s) end.
(** file.c:262-274 json2prefix6, json2prefix4 *)
Definition json2prefix6 (v : json) : option prefix6 := match v with JStr s => str_to_prefix6 N s | _ => None end.
Definition json2prefix4 (v : json) : option prefix4 := match v with JStr s => str_to_prefix4 N s | _ => None end.
(** file.c:276-287 json2mark: valueint, which is zero if the number is not an int *)
Definition json2mark (v : json) : option Z :=
  match validate_uint v 0 MAX_U32, v with
  | Some _, JNum neg m e => Some (match num_int neg m e with Some i => i mod 2 ^ 32 | None => 0 end)
  | _, _ => None
  end.
(** file.c:289-294 json2port_range *)
Definition json2port_range (v : json) : option (Z * Z) := match v with JStr s => str_to_port_range s | _ => None end.
(** file.c:296-331 json2max_iterations: flags and iterations *)
Definition json2max_iterations (v : json) : option (Z * Z) :=
  match v with
  | JNum _ _ _ => match validate_uint v 1 MAX_U32 with Some u => Some (1, u) | None => None end
  | JStr s => if str_eqb s (txt "auto") then Some (3, 0) else if str_eqb s (txt "infinity") then Some (5, 0) else None
  | _ => None
  end.
(** file.c:333-345 json2taddr6, json2taddr4 *)
Definition json2taddr6 (v : json) : option (Z * Z) := match v with JStr s => str_to_addr6_port N s | _ => None end.
Definition json2taddr4 (v : json) : option (Z * Z) := match v with JStr s => str_to_addr4_port N s | _ => None end.
(** src/common/types.c:37-46 str_to_l4proto, file.c:347-364 json2proto *)
Definition json2proto (v : json) : option Z :=
  match v with
  | JStr s => if case_eqb (txt "TCP") s then Some 0 else if case_eqb (txt "UDP") s then Some 1 else if case_eqb (txt "ICMP") s then Some 2 else None
  | _ => None
  end.

(** ** Entries *)

(** file.c:372-389 handle_eam_entry, up to nla_put_eam(). [None]: no value. *)
Record eam_buf := EamBuf { eb_6 : option prefix6; eb_4 : option prefix4 }.
Definition handle_eam_entry (v : json) : ferr + entry :=
  match handle_object v
    [Meta (txt "ipv6 prefix") (field json2prefix6 (fun x s => EamBuf (Some x) (eb_4 s))) true;
     Meta (txt "ipv4 prefix") (field json2prefix4 (fun x s => EamBuf (eb_6 s) (Some x))) true]
    (EamBuf None None) with
  | (Some e, _) => inl e
  | (None, s) => match eb_6 s, eb_4 s with Some a, Some b => inr (EEam a b) | _, _ => inl Uninitialised end
  end.
(** file.c:391-406 handle_denylist_entry *)
Definition handle_denylist_entry (v : json) : ferr + entry :=
  match json2prefix4 v with Some p => inr (EDeny p) | None => inl Bad end.
(** file.c:408-434 handle_pool4_entry *)
Record pool4_buf := P4Buf { pb_mark : Z; pb_iter : Z * Z; pb_proto : option Z; pb_prefix : option prefix4; pb_ports : Z * Z }.
Definition handle_pool4_entry (v : json) : ferr + entry :=
  match handle_object v
    [Meta (txt "mark") (field json2mark (fun x s => P4Buf x (pb_iter s) (pb_proto s) (pb_prefix s) (pb_ports s))) false;
     Meta (txt "protocol") (field json2proto (fun x s => P4Buf (pb_mark s) (pb_iter s) (Some x) (pb_prefix s) (pb_ports s))) true;
     Meta (txt "prefix") (field json2prefix4 (fun x s => P4Buf (pb_mark s) (pb_iter s) (pb_proto s) (Some x) (pb_ports s))) true;
     Meta (txt "port range") (field json2port_range (fun x s => P4Buf (pb_mark s) (pb_iter s) (pb_proto s) (pb_prefix s) x)) false;
     Meta (txt "max-iterations") (field json2max_iterations (fun x s => P4Buf (pb_mark s) x (pb_proto s) (pb_prefix s) (pb_ports s))) false]
    (P4Buf 0 (0, 0) None None (61001, 65535)) with
  | (Some e, _) => inl e
  | (None, s) =>
    match pb_proto s, pb_prefix s with
    | Some p, Some x => inr (EPool4 (pb_mark s) (snd (pb_iter s)) (fst (pb_iter s)) p x (pb_ports s))
    | _, _ => inl Uninitialised
    end
  end.
(** file.c:436-456 handle_bib_entry *)
Record bib_buf := BibBuf { bb_6 : option (Z * Z); bb_4 : option (Z * Z); bb_proto : option Z }.
Definition handle_bib_entry (v : json) : ferr + entry :=
  match handle_object v
    [Meta (txt "ipv6 address") (field json2taddr6 (fun x s => BibBuf (Some x) (bb_4 s) (bb_proto s))) true;
     Meta (txt "ipv4 address") (field json2taddr4 (fun x s => BibBuf (bb_6 s) (Some x) (bb_proto s))) true;
     Meta (txt "protocol") (field json2proto (fun x s => BibBuf (bb_6 s) (bb_4 s) (Some x))) true]
    (BibBuf None None None) with
  | (Some e, _) => inl e
  | (None, s) =>
    match bb_6 s, bb_4 s, bb_proto s with
    | Some a, Some b, Some p => inr (EBib a b p true)
    | _, _, _ => inl Uninitialised
    end
  end.

(** ** Settings *)

(** src/common/global.c:704-753, the types *)
Inductive gtype := GBool | GU8 | GU32 | GTimeout | GPlateaus | GPrefix6 | GPrefix4 | GHairpin.
(** src/common/global.c:755-1015 globals_metadata: numbers, names and types *)
Definition settings : list (Z * list Z * gtype) :=
  [(JNLAG_ENABLED, txt "manually-enabled", GBool);
   (JNLAG_POOL6, txt "pool6", GPrefix6);
   (JNLAG_LOWEST_IPV6_MTU, txt "lowest-ipv6-mtu", GU32);
   (JNLAG_DEBUG, txt "logging-debug", GBool);
   (JNLAG_RESET_TC, txt "zeroize-traffic-class", GBool);
   (JNLAG_RESET_TOS, txt "override-tos", GBool);
   (JNLAG_TOS, txt "tos", GU8);
   (JNLAG_PLATEAUS, txt "mtu-plateaus", GPlateaus);
   (JNLAG_COMPUTE_CSUM_ZERO, txt "amend-udp-checksum-zero", GBool);
   (JNLAG_HAIRPIN_MODE, txt "eam-hairpin-mode", GHairpin);
   (JNLAG_RANDOMIZE_ERROR_ADDR, txt "randomize-rfc6791-addresses", GBool);
   (JNLAG_POOL6791V6, txt "rfc6791v6-prefix", GPrefix6);
   (JNLAG_POOL6791V4, txt "rfc6791v4-prefix", GPrefix4);
   (JNLAG_DROP_BY_ADDR, txt "address-dependent-filtering", GBool);
   (JNLAG_DROP_EXTERNAL_TCP, txt "drop-externally-initiated-tcp", GBool);
   (JNLAG_DROP_ICMP6_INFO, txt "drop-icmpv6-info", GBool);
   (JNLAG_SRC_ICMP6_BETTER, txt "source-icmpv6-errors-better", GBool);
   (JNLAG_F_ARGS, txt "f-args", GU8);
   (JNLAG_HANDLE_RST, txt "handle-rst-during-fin-rcv", GBool);
   (JNLAG_TTL_TCP_EST, txt "tcp-est-timeout", GTimeout);
   (JNLAG_TTL_TCP_TRANS, txt "tcp-trans-timeout", GTimeout);
   (JNLAG_TTL_UDP, txt "udp-timeout", GTimeout);
   (JNLAG_TTL_ICMP, txt "icmp-timeout", GTimeout);
   (JNLAG_BIB_LOGGING, txt "logging-bib", GBool);
   (JNLAG_SESSION_LOGGING, txt "logging-session", GBool);
   (JNLAG_MAX_STORED_PKTS, txt "maximum-simultaneous-opens", GU32);
   (JNLAG_JOOLD_ENABLED, txt "ss-enabled", GBool);
   (JNLAG_JOOLD_FLUSH_ASAP, txt "ss-flush-asap", GBool);
   (JNLAG_JOOLD_FLUSH_DEADLINE, txt "ss-flush-deadline", GU32);
   (JNLAG_JOOLD_CAPACITY, txt "ss-capacity", GU32);
   (JNLAG_JOOLD_MAX_PAYLOAD, txt "ss-max-payload", GU32);
   (JNLAG_JOOLD_MAX_SESSIONS_PER_PACKET, txt "ss-max-sessions-per-packet", GU32)].

(** src/common/global.c:512-600 str2nl_timeout, str2nl_prefix6, str2nl_prefix4, str2nl_hairpin_mode *)
Definition str2nl (t : gtype) (s : list Z) : option gval :=
  match t with
  | GTimeout => match str_to_timeout s with Some n => Some (VU32 n) | None => None end
  | GPrefix6 => match str2nl_prefix6 N s with
                | Some (Some p) => Some (VPrefix6 (Some (p6_len p)) (Some (p6_addr p)))
                | Some None => Some (VPrefix6 (Some 0) None)
                | None => None
                end
  | GPrefix4 => match str2nl_prefix4 N s with
                | Some (Some p) => Some (VPrefix4 (Some (p4_len p)) (Some (p4_addr p)))
                | Some None => Some (VPrefix4 (Some 0) None)
                | None => None
                end
  | GHairpin => match str2nl_hairpin_mode s with Some m => Some (VU8 m) | None => None end
  | _ => None
  end.
Fixpoint all_uint (l : list json) (max : Z) : option (list Z) :=
  match l with
  | [] => Some []
  | v :: l => match validate_uint v 0 max, all_uint l max with Some u, Some us => Some (u :: us) | _, _ => None end
  end.
(** src/common/global.c:602-685 json2nl_bool, json2nl_u8, json2nl_u32, json2nl_string, json2nl_plateaus *)
Definition json2nl (t : gtype) (v : json) : option gval :=
  match t with
  | GBool => match v with JTrue => Some (VU8 1) | JFalse => Some (VU8 0) | _ => None end
  | GU8 => match validate_uint v 0 255 with Some u => Some (VU8 u) | None => None end
  | GU32 => match validate_uint v 0 MAX_U32 with Some u => Some (VU32 u) | None => None end
  | GPlateaus => match v with
                 | JArr l => match all_uint l 65535 with Some us => Some (VPlateaus us) | None => None end
                 | _ => None
                 end
  | _ => match v with JStr s => str2nl t s | JNull => str2nl t (txt "null") | _ => None end
  end.
(** file.c:189-193 write_global. (An empty list of plateaus leaves no attribute.) *)
Definition write_global (id : Z) (t : gtype) (v : json) (gs : list (Z * gval)) : fr * list (Z * gval) :=
  match json2nl t v with
  | None => (Some Bad, gs)
  | Some (VPlateaus []) => (if u_nest U then None else Some NoRoom, gs)
  | Some g => if u_setting U gs (id, g) then (None, gs ++ [(id, g)]) else (Some NoRoom, gs)
  end.
(** file.c:220-254 handle_global, 195-218 create_globals_meta *)
Definition handle_globals (a : about) (v : json) (w : world) : fr * world :=
  match alloc_msg w with
  | (Some e, w) => (Some e, w)
  | (None, w) =>
    if negb (u_nest U) then (Some NoRoom, w) else
    match alloc_msg w with (* calloc() *)
    | (Some e, w) => (Some e, w)
    | (None, w) =>
      match handle_object v (map (fun x => let '(id, n, t) := x in Meta n (write_global id t) false) settings) [] with
      | (Some e, _) => (Some e, w)
      | (None, gs) => request (a_msg a (a_force a) None (match gs with [] => None | _ => Some gs end) None false) w
      end
    end
  end.

(** ** The file *)
Definition do_nothing {S} (v : json) (s : S) : fr * S := (None, s).

(** file.c:505-534 parse_siit_json, parse_nat64_json *)
Definition parse_json (a : about) (v : json) (w : world) : fr * world :=
  let common := [Meta (txt "instance") do_nothing true; Meta (txt "framework") do_nothing true; Meta (txt "global") (handle_globals a) false] in
  if a_xt a =? XT_SIIT then
    handle_object v (common ++
      [Meta (txt "eamt") (handle_array a Eamt handle_eam_entry) false;
       Meta (txt "blacklist4") (handle_array a Denylist4 handle_denylist_entry) false;
       Meta (txt "denylist4") (handle_array a Denylist4 handle_denylist_entry) false]) w
  else if a_xt a =? XT_NAT64 then
    handle_object v (common ++
      [Meta (txt "pool4") (handle_array a Pool4 handle_pool4_entry) false;
       Meta (txt "bib") (handle_array a Bib handle_bib_entry) false]) w
  else (Some Bad, w).

(** The variables iname and flags *)
Record first_pass := First { fp_name : option name; fp_flags : Z }.
(** file.c:542-564 handle_instance_tag *)
Definition handle_instance_tag (arg : option name) (v : json) (s : first_pass) : fr * first_pass :=
  match v with
  | JStr n =>
    match iname_validate n with
    | Err _ => (Some Bad, s)
    | OK => if match arg with Some a => negb (str_eqb a n) | None => false end then (Some Bad, s)
            else (None, First (Some n) (fp_flags s))
    end
  | _ => (Some Bad, s)
  end.
(** file.c:566-584 handle_framework_tag *)
Definition handle_framework_tag (v : json) (s : first_pass) : fr * first_pass :=
  match v with
  | JStr n => if str_eqb n (txt "netfilter") then (None, First (fp_name s) (Z.lor (fp_flags s) XF_NETFILTER))
              else if str_eqb n (txt "iptables") then (None, First (fp_name s) (Z.lor (fp_flags s) XF_IPTABLES))
              else (Some Bad, s)
  | _ => (Some Bad, s)
  end.
(** file.c:595-635 prepare_instance: the name and the flags *)
Definition prepare_instance (arg : option name) (xt : Z) (v : json) : ferr + (name * Z) :=
  match match arg with Some a => iname_validate a | None => OK end with
  | Err _ => inl Bad
  | OK =>
    match handle_object v
      ([Meta (txt "instance") (handle_instance_tag arg) false; Meta (txt "framework") handle_framework_tag true] ++
       map (fun n => Meta n do_nothing false) [txt "global"; txt "eamt"; txt "blacklist4"; txt "denylist4"; txt "pool4"; txt "bib"])
      (First None xt) with
    | (Some e, _) => inl e
    | (None, s) => match fp_name s, arg with
                   | Some n, _ => inr (n, fp_flags s)
                   | None, Some n => inr (n, fp_flags s)
                   | None, None => inl Bad
                   end
    end
  end.
(** file.c:643-666 send_ctrl_msg: if the attribute does not fit, success without sending *)
Definition send_ctrl_msg (a : about) (i : option Z) (w : world) : fr * world :=
  match alloc_msg w with
  | (Some e, w) => (Some e, w)
  | (None, w) => if u_ctrl U then request (a_msg a false i None None (match i with Some _ => false | None => true end)) w else (None, w)
  end.
(** file.c:668-718 do_parsing, after cJSON_Parse() *)
Definition do_parsing (xt : Z) (force : bool) (arg : option name) (v : json) (w : world) : fr * world :=
  match prepare_instance arg xt v with
  | inl e => (Some e, w)
  | inr (n, flags) =>
    let a := About (flags2xt flags) n force in
    match send_ctrl_msg a (Some (flags2xf flags)) w with
    | (Some e, w) => (Some e, w)
    | (None, w) =>
      match parse_json a v w with
      | (Some e, w) => (Some e, w)
      | (None, w) => send_ctrl_msg a None w
      end
    end
  end.
(** file.c:720-737 joolnl_file_parse, after file_to_string(). [None]: undefined
    behaviour in the JSON parser (or, never, no fuel). *)
Definition joolnl_file_parse (xt : Z) (force : bool) (arg : option name) (text : list Z) : option (fr * world) :=
  match cJSON_Parse (text ++ [0]) with
  | POk v => Some (do_parsing xt force arg v (World [] 0))
  | PFail => Some (Some Bad, World [] 0)
  | _ => None
  end.
End File.

(** ** The instance's name *)

(** What joolnl_file_get_iname() gives: a name, an error, or undefined behaviour. *)
Inductive gres := GName (n : list Z) | GErr | GNullDeref | GUseAfterFree | GParser.
(** file.c:739-759 __json_get_iname: strdup() of a valuestring that is NULL unless
    the element is a string *)
Fixpoint find_iname (l : list (list Z * json)) : gres :=
  match l with
  | [] => GErr
  | (k, v) :: l => if case_eqb k (txt "instance") then match v with JStr n => GName n | _ => GNullDeref end else find_iname l
  end.
Definition json_get_iname (v : json) : gres := match v with JObj l => find_iname l | _ => GErr end.
(** file.c:761-787 joolnl_file_get_iname, after file_to_string(): the text has been
    freed when cJSON_GetErrorPtr(), which points into it, is printed. *)
Definition joolnl_file_get_iname (text : list Z) : gres :=
  match cJSON_Parse (text ++ [0]) with
  | POk v => json_get_iname v
  | PFail => GUseAfterFree
  | _ => GParser
  end.

(** ** src/usr/util/file.c:11-90 file_to_string: the loop. [reads]: what each fread() gives;
    there is no more to read after the last. *)
Inductive rres := RText (t : list Z) | ROverWrite | RForever.
Fixpoint read_loop (len : nat) (buf : list Z) (reads : list (list Z)) : rres :=
  if (len <=? List.length buf)%nat then (if (len <? List.length buf)%nat then ROverWrite else RText buf)
  else match reads with
       | [] => RForever
       | r :: reads => if (S len <? List.length buf + List.length r)%nat then ROverWrite else read_loop len (buf ++ r) reads
       end.
