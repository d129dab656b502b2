(** The counters: src/mod/common/stats.c, which counts; and "jool stats display", from the function of the client's library to the counters and
    back, on octets: src/usr/nl/stats.c, src/mod/common/nl/stats.c (handle_stats_foreach()). Headers, instances and answers to errors are in
    [Req_Model]. What is printed of each counter is not modelled, but for which ones are printed. *)
Require Import Verif.Base Verif.Addr_Model Verif.Pool4_Model Verif.Bib_Model Verif.Glob_Model Verif.Inst_Model Verif.Nla_Model Verif.Req_Model Verif.Lst_Model.
Require Import String.
Open Scope string_scope.
Open Scope list_scope.
Open Scope Z_scope.

(** ** Numbers and names *)

(** src/common/stats.h:14-117 enum jool_stat_id: the first is 1. *)
Definition stat_enum : list string := [
  "JSTAT_RECEIVED6"; "JSTAT_RECEIVED4"; "JSTAT_SUCCESS"; "JSTAT_BIB_ENTRIES"; "JSTAT_SESSIONS"; "JSTAT_ENOMEM"; "JSTAT_XLATOR_DISABLED";
  "JSTAT_POOL6_UNSET"; "JSTAT_SKB_SHARED"; "JSTAT_L3HDR_OFFSET"; "JSTAT_SKB_TRUNCATED"; "JSTAT_HDR6"; "JSTAT_HDR4"; "JSTAT_UNKNOWN_L4_PROTO";
  "JSTAT_UNKNOWN_ICMP6_TYPE"; "JSTAT_UNKNOWN_ICMP4_TYPE"; "JSTAT_DOUBLE_ICMP6_ERROR"; "JSTAT_DOUBLE_ICMP4_ERROR"; "JSTAT_UNKNOWN_PROTO_INNER";
  "JSTAT_HAIRPIN_LOOP"; "JSTAT_POOL6_MISMATCH"; "JSTAT_POOL4_MISMATCH"; "JSTAT_ICMP6_FILTER"; "JSTAT_UNTRANSLATABLE_DST6";
  "JSTAT_UNTRANSLATABLE_DST4"; "JSTAT_6056_F"; "JSTAT_MASK_DOMAIN_NOT_FOUND"; "JSTAT_BIB6_NOT_FOUND"; "JSTAT_BIB4_NOT_FOUND";
  "JSTAT_SESSION_NOT_FOUND"; "JSTAT_ADF"; "JSTAT_V4_SYN"; "JSTAT_SYN6_EXPECTED"; "JSTAT_SYN4_EXPECTED"; "JSTAT_TYPE1PKT"; "JSTAT_TYPE2PKT";
  "JSTAT_SO_EXISTS"; "JSTAT_SO_FULL"; "JSTAT64_SRC"; "JSTAT64_DST"; "JSTAT64_PSKB_COPY"; "JSTAT64_6791_ENOENT"; "JSTAT64_ICMP_CSUM";
  "JSTAT64_UNTRANSLATABLE_PARAM_PROB_PTR"; "JSTAT64_TTL"; "JSTAT64_FRAGMENTED_ICMP"; "JSTAT64_2XFRAG"; "JSTAT64_FRAG_THEN_EXT";
  "JSTAT64_SEGMENTS_LEFT"; "JSTAT46_SRC"; "JSTAT46_DST"; "JSTAT46_PSKB_COPY"; "JSTAT46_6791_ENOENT"; "JSTAT46_ICMP_CSUM";
  "JSTAT46_UNTRANSLATABLE_PARAM_PROBLEM_PTR"; "JSTAT46_TTL"; "JSTAT46_FRAGMENTED_ICMP"; "JSTAT46_SRC_ROUTE"; "JSTAT46_FRAGMENTED_ZERO_CSUM";
  "JSTAT46_BAD_MTU"; "JSTAT_FAILED_ROUTES"; "JSTAT_PKT_TOO_BIG"; "JSTAT_DST_OUTPUT"; "JSTAT_ICMP6ERR_SUCCESS"; "JSTAT_ICMP6ERR_FAILURE";
  "JSTAT_ICMP4ERR_SUCCESS"; "JSTAT_ICMP4ERR_FAILURE"; "JSTAT_ICMPEXT_BIG"; "JSTAT_JOOLD_EMPTY"; "JSTAT_JOOLD_TIMEOUT"; "JSTAT_JOOLD_MISSING_ACK";
  "JSTAT_JOOLD_AD_ONGOING"; "JSTAT_JOOLD_PKT_FULL"; "JSTAT_JOOLD_QUEUING"; "JSTAT_JOOLD_SSS_QUEUED"; "JSTAT_JOOLD_SSS_SENT"; "JSTAT_JOOLD_SSS_RCVD";
  "JSTAT_JOOLD_SSS_ENOSPC"; "JSTAT_JOOLD_PKT_SENT"; "JSTAT_JOOLD_PKT_RCVD"; "JSTAT_JOOLD_ADS"; "JSTAT_JOOLD_ACKS"; "JSTAT_UNKNOWN"; "JSTAT_PADDING";
  "JSTAT_COUNT"].
Fixpoint position (i : Z) (x : string) (l : list string) : Z :=
  match l with [] => 0 | y :: l => if String.eqb x y then i else position (i + 1) x l end.
Definition stat_id (x : string) : Z := position 1 x stat_enum.
Definition JSTAT_UNKNOWN : Z := stat_id "JSTAT_UNKNOWN".
Definition JSTAT_PADDING : Z := stat_id "JSTAT_PADDING".
Definition JSTAT_COUNT : Z := stat_id "JSTAT_COUNT".
Definition JSTAT_MAX : Z := JSTAT_COUNT - 1.

(** src/usr/nl/stats.c:9-112 DEFINE_STAT, jstat_metadatas: each is put at the index that is its identifier's number; its name is its identifier. What is at an index:
    the id and the name. Indexes that are not named hold zeroes. The texts ("doc") are left out. *)
Definition metadatas : list string := [
  "JSTAT_RECEIVED6"; "JSTAT_RECEIVED4"; "JSTAT_SUCCESS"; "JSTAT_BIB_ENTRIES"; "JSTAT_SESSIONS"; "JSTAT_ENOMEM"; "JSTAT_XLATOR_DISABLED";
  "JSTAT_POOL6_UNSET"; "JSTAT_SKB_SHARED"; "JSTAT_L3HDR_OFFSET"; "JSTAT_SKB_TRUNCATED"; "JSTAT_HDR6"; "JSTAT_HDR4"; "JSTAT_UNKNOWN_L4_PROTO";
  "JSTAT_UNKNOWN_ICMP6_TYPE"; "JSTAT_UNKNOWN_ICMP4_TYPE"; "JSTAT_DOUBLE_ICMP6_ERROR"; "JSTAT_DOUBLE_ICMP4_ERROR"; "JSTAT_UNKNOWN_PROTO_INNER";
  "JSTAT_HAIRPIN_LOOP"; "JSTAT_POOL6_MISMATCH"; "JSTAT_POOL4_MISMATCH"; "JSTAT_ICMP6_FILTER"; "JSTAT_UNTRANSLATABLE_DST6";
  "JSTAT_UNTRANSLATABLE_DST4"; "JSTAT_6056_F"; "JSTAT_MASK_DOMAIN_NOT_FOUND"; "JSTAT_BIB6_NOT_FOUND"; "JSTAT_BIB4_NOT_FOUND";
  "JSTAT_SESSION_NOT_FOUND"; "JSTAT_ADF"; "JSTAT_V4_SYN"; "JSTAT_SYN6_EXPECTED"; "JSTAT_SYN4_EXPECTED"; "JSTAT_TYPE1PKT"; "JSTAT_TYPE2PKT";
  "JSTAT_SO_EXISTS"; "JSTAT_SO_FULL"; "JSTAT64_SRC"; "JSTAT64_DST"; "JSTAT64_PSKB_COPY"; "JSTAT64_6791_ENOENT"; "JSTAT64_ICMP_CSUM";
  "JSTAT64_UNTRANSLATABLE_PARAM_PROB_PTR"; "JSTAT64_TTL"; "JSTAT64_FRAGMENTED_ICMP"; "JSTAT64_2XFRAG"; "JSTAT64_FRAG_THEN_EXT";
  "JSTAT64_SEGMENTS_LEFT"; "JSTAT46_SRC"; "JSTAT46_DST"; "JSTAT46_PSKB_COPY"; "JSTAT46_6791_ENOENT"; "JSTAT46_ICMP_CSUM";
  "JSTAT46_UNTRANSLATABLE_PARAM_PROBLEM_PTR"; "JSTAT46_TTL"; "JSTAT46_FRAGMENTED_ICMP"; "JSTAT46_SRC_ROUTE"; "JSTAT46_FRAGMENTED_ZERO_CSUM";
  "JSTAT46_BAD_MTU"; "JSTAT_FAILED_ROUTES"; "JSTAT_PKT_TOO_BIG"; "JSTAT_DST_OUTPUT"; "JSTAT_ICMP6ERR_SUCCESS"; "JSTAT_ICMP6ERR_FAILURE";
  "JSTAT_ICMP4ERR_SUCCESS"; "JSTAT_ICMP4ERR_FAILURE"; "JSTAT_ICMPEXT_BIG"; "JSTAT_JOOLD_EMPTY"; "JSTAT_JOOLD_TIMEOUT"; "JSTAT_JOOLD_MISSING_ACK";
  "JSTAT_JOOLD_AD_ONGOING"; "JSTAT_JOOLD_PKT_FULL"; "JSTAT_JOOLD_QUEUING"; "JSTAT_JOOLD_SSS_QUEUED"; "JSTAT_JOOLD_SSS_SENT"; "JSTAT_JOOLD_SSS_RCVD";
  "JSTAT_JOOLD_SSS_ENOSPC"; "JSTAT_JOOLD_PKT_SENT"; "JSTAT_JOOLD_PKT_RCVD"; "JSTAT_JOOLD_ADS"; "JSTAT_JOOLD_ACKS"; "JSTAT_UNKNOWN"; "JSTAT_PADDING"].
Fixpoint metadata_at (l : list string) (i : Z) : option string :=
  match l with [] => None | x :: l => match metadata_at l i with Some y => Some y | None => if stat_id x =? i then Some x else None end end.
(** ARRAY_SIZE() *)
Definition metadata_size : Z := 1 + fold_right Z.max (-1) (map stat_id metadatas).
(** src/usr/nl/stats.c:116-134 validate_stats *)
Definition metadata_id (i : Z) : Z := match metadata_at metadatas i with Some x => stat_id x | None => 0 end.
Definition validate_stats : bool := (metadata_size =? JSTAT_COUNT) && forallb (fun i => i =? metadata_id i) (map Z.of_nat (seq 0 (Z.to_nat JSTAT_COUNT))).

(** ** Counting *)

(** struct jool_mib: an unsigned long, of [bits] bits, for each processor and counter. src/mod/common/stats.c:16-33 jstat_alloc: alloc_percpu() gives zeroes. *)
Definition mib := Z -> Z -> Z.
Definition jstat_alloc : mib := fun _ _ => 0.
Section Counting.
Context (bits : Z) (cpus : list Z).
(** SNMP_ADD_STATS() on the processor [cpu]: this_cpu_add() *)
Definition snmp_add (m : mib) (cpu id n : Z) : mib := fun c i => if (c =? cpu) && (i =? id) then (m c i + n) mod 2 ^ bits else m c i.
(** src/mod/common/stats.c:54-67 jstat_inc, jstat_dec, jstat_add *)
Inductive count := Inc (id : Z) | Dec (id : Z) | Add (id n : Z).
Definition counted (m : mib) (x : Z * count) : mib :=
  let (cpu, x) := x in
  match x with Inc id => snmp_add m cpu id 1 | Dec id => snmp_add m cpu id (-1) | Add id n => snmp_add m cpu id n end.
(** snmp_fold_field(): the sum over all processors, as an unsigned long *)
Definition snmp_fold_field (m : mib) (id : Z) : Z := fold_left (fun r c => (r + m c id) mod 2 ^ bits) cpus 0.
(** src/mod/common/stats.c:73-86 jstat_query: [mem], whether there is memory *)
Definition jstat_query (mem : bool) (m : mib) : option (Z -> Z) := if mem then Some (snmp_fold_field m) else None.
End Counting.

Section Listing.
(** [align]: the machine wants numbers of 64 bits aligned (CONFIG_HAVE_EFFICIENT_UNALIGNED_ACCESS is off). *)
Context (h : host) (align : bool).

(** ** The module *)

(** nla_put_u64_64bit(), nla_need_padding_for_64bit(): if the attribute would begin at a multiple of 8, an empty one is put first; the message begins
    with 20 octets (struct nlmsghdr, struct genlmsghdr) that are not in [b]. *)
Definition nla_put_u64_64bit (cap ty v pad : Z) (b : list Z) : put :=
  let need := align && ((20 + zlen b) mod 8 =? 0) in
  if cap <? zlen b + (if need then 16 else 12) then NoRoom b
  else andthen (if need then nla_put h cap pad [] else done) (nla_put h cap ty (host_octets h 8 v)) b.
(** src/mod/common/nl/stats.c:44-54, the loop of handle_stats_foreach; [fuel]: as many as there are. The reply, and whether one did not fit *)
Fixpoint put_stats (fuel : nat) (cap : Z) (stats : Z -> Z) (id : Z) (b : list Z) : list Z * bool :=
  match fuel with
  | O => (b, false)
  | S fuel =>
    if id <=? JSTAT_UNKNOWN then
      match nla_put_u64_64bit cap id (stats id) JSTAT_PADDING b with
      | NoRoom b => (b, true)
      | Put b => put_stats fuel cap stats (id + 1) b
      end
    else (b, false)
  end.
Section Module.
(** [query]: jstat_query() on the counters of the instance *)
Context {S I : Type} (K : kernel S I) (query : I -> S -> option (Z -> Z)).
(** src/mod/common/nl/stats.c:9-72 handle_stats_foreach. ([errno] has no EMSGSIZE, which is told if not even one counter fits: here, ENOSPC.) *)
Definition serve_stats (w : answering) (admin : bool) (b : list Z) (s : S) : rd (option (list Z)) :=
  if zlen b <? 28 then Bad EINVAL
  else
    rbind (nla_parse_k h JNLAR_MAX jool_policy (skipn 28 b)) (fun t =>
    match request_handle_start K admin b XT_ANY s with
    | inl e => Got (jresponse_send_simple h w b (Err e))
    | inr i =>
      rbind (match t JNLAR_OFFSET_U8 with Some a => nla_get h 1 a | None => Got 0 end) (fun id =>
      match query i s with
      | None => Got (jresponse_send_simple h w b (Err ENOMEM))
      | Some stats =>
        match jresponse_init w b with
        | None => Got (jresponse_send_simple h w b (Err ENOMEM))
        | Some reply =>
          let (r, full) := put_stats (Z.to_nat JSTAT_COUNT) (a_cap w) stats (id + 1) reply in
          if full then (if (Nat.eqb (List.length r) (List.length reply)) then Got (jresponse_send_simple h w b (Err ENOSPC)) else Got (Some (set_flag r FLAGS_M)))
          else Got (Some r)
        end
      end)
    end).
End Module.

(** ** The client *)

(** struct joolnl_stat: the number, the name ([None]: "????", and a warning on stderr) and the value *)
Record stat := Stat { st_id : Z; st_name : option string; st_value : Z }.
(** nla_get_u64() of libnl: 0, if there are fewer than 8 octets *)
Definition nla_get_u64_u (a : attr) : Z := if zlen (a_data a) <? 8 then 0 else host_number h (firstn 8 (a_data a)).
(** src/usr/nl/stats.c:178-192, the loop of stats_query_response. *)
Definition stat_of (a : attr) : stat :=
  let id := nla_type a in
  Stat id (if (id <? 1) || (JSTAT_MAX <=? id) then None else metadata_at metadatas id) (nla_get_u64_u a).
(** src/usr/nl/core.c:176-212 response_handler with src/usr/nl/stats.c:160-195 stats_query_response; src/usr/nl/common.c:17-30 joolnl_init_foreach *)
Definition stats_response (u : client) (b : list Z) : rd (list stat * option ending) :=
  if zlen b <? 28 then Got ([], Some (Failed Nonsense))
  else if negb (validate_joolnlhdr u b) then Got ([], Some (Failed Nonsense))
  else if bit_and (hdr_flags b) FLAGS_ERROR then rbind (joolnl_msg2result h b) (fun o => Got ([], Some (Failed o)))
  else Got (map stat_of (fst (attributes h (skipn 28 b))), if bit_and (hdr_flags b) FLAGS_M then None else Some Complete).

Section Loop.
Context {S I : Type} (K : kernel S I) (query : I -> S -> option (Z -> Z)).
(** src/usr/nl/stats.c:197-229 joolnl_stats_foreach, the loop. [states]: what the module finds at each request. [last]: qargs.last *)
Fixpoint stats_loop (u : client) (w : answering) (admin : bool) (n : option name) (last : Z) (states : list S) : rd (list stat * ending) :=
  match states with
  | [] => Got ([], Pending)
  | s :: states =>
    match joolnl_alloc_msg u n 0 with
    | None => Got ([], Failed Unsent)
    | Some b =>
      match (if last =? 0 then done else nla_put_u8 h (u_cap u) JNLAR_OFFSET_U8 last) b with
      | NoRoom _ => Got ([], Failed Unsent)
      | Put b =>
        match serve_stats K query w admin b s with
        | Stray => Stray
        | Bad _ | Got None => Got ([], Failed NoAnswer)
        | Got (Some a) =>
          match stats_response u a with
          | Stray => Stray
          | Bad _ => Got ([], Failed Nonsense)
          | Got (shown, Some e) => Got (shown, e)
          | Got (shown, None) =>
            rbind (stats_loop u w admin n (match rev shown with x :: _ => st_id x | [] => last end) states) (fun r => Got (shown ++ fst r, snd r))
          end
        end
      end
    end
  end.
Definition joolnl_stats_foreach (u : client) (w : answering) (admin : bool) (n : option name) (states : list S) : rd (list stat * ending) :=
  if validate_stats then stats_loop u w admin n 0 states else Got ([], Failed Nonsense).
End Loop.
End Listing.
(** src/usr/argp/wargp/stats.c:36-56 handle_jstat: which counters are printed *)
Definition printed (all : bool) (l : list stat) : list stat := filter (fun x => all || negb (st_value x =? 0)) l.
