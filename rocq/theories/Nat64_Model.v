(** A packet through the stateful translator: incoming tuple, filtering and
    updating, outgoing tuple, hairpinning.
    Sources: src/mod/common/steps/determine_incoming_tuple.c,
    src/mod/common/steps/filtering_and_updating.c,
    src/mod/common/steps/compute_outgoing_tuple.c,
    src/mod/common/steps/handling_hairpinning_nat64.c, src/mod/common/core.c,
    src/mod/common/types.c, src/mod/common/db/bib/db.c.
    Simplified: packets are the fields those steps look at, already parsed
    (packet.c checks the lengths before); no logging and no counters; joold_add
    (filtering_and_updating.c:94-95) gets the session that is in the result.
    Whether the translation of the headers and the sending succeed is an argument. *)
Require Import Verif.Base Verif.Addr_Model Verif.Rtrie_Model Verif.Pool4_Model Verif.Fsm_Model Verif.Bib_Model.

(** ** Packets *)

(** types.c:9-12 is_icmp6_info, 14-24 is_icmp6_error, 26-29 is_icmp4_info, 31-38 is_icmp4_error *)
Definition is_icmp6_info (ty : Z) : bool := (ty =? 128) || (ty =? 129).
Definition is_icmp6_error (ty : Z) : bool := (ty =? 1) || (ty =? 2) || (ty =? 3) || (ty =? 4).
Definition is_icmp4_info (ty : Z) : bool := (ty =? 8) || (ty =? 0).
Definition is_icmp4_error (ty : Z) : bool := (ty =? 3) || (ty =? 4) || (ty =? 5) || (ty =? 11) || (ty =? 12).

(** The packet inside an ICMP error: its addresses and transport header. *)
Inductive inner_l4 := IUdp (sport dport : Z) | ITcp (sport dport : Z) | IIcmp (ty id : Z) | IOther.
Record inner := Inner { in_src : Z; in_dst : Z; in_l4 : inner_l4 }.
Inductive l4hdr :=
| LUdp (sport dport : Z)
| LTcp (sport dport : Z) (syn fin rst : bool)
| LIcmp (ty id : Z) (i : inner)
| LOther.
Record pkt := Pkt { k_fam : fam; k_src : Z; k_dst : Z; k_l4 : l4hdr }.

(** What filtering_and_updating looks at: packet.h struct packet's l3_proto,
    l4_proto, tuple and the headers. [v_pr] is the tuple's l4_proto, which in
    ICMP errors is the inner packet's; [v_l4] is the packet's. *)
Record view := View {
  v_fam : fam; v_saddr : Z; v_daddr : Z; v_l4 : proto; v_err : bool; v_seg : segment;
  v_src : ta; v_dst : ta; v_pr : proto }.

Inductive nverdict := Continue | Dropped | Untranslatable | Stolen.

(** determine_incoming_tuple.c:88-137 ipv4_icmp_err and 198-254 ipv6_icmp_err;
    the tuple is that of the packet that would have been the answer *)
Definition icmp_err (k : pkt) (i : inner) : nverdict * option view :=
  let view pr sl dl :=
    (Continue, Some (View (k_fam k) (k_src k) (k_dst k) ICMP true (Seg (k_fam k) false false false) (in_dst i, sl) (in_src i, dl) pr)) in
  match in_l4 i with
  | IUdp s d => view UDP d s
  | ITcp s d => view TCP d s
  | IIcmp ty id =>
    if match k_fam k with V6 => is_icmp6_error ty | V4 => is_icmp4_error ty end then (Dropped, None) else view ICMP id id
  | IOther => (Untranslatable, None)
  end.

(** determine_incoming_tuple.c:47-58 ipv4_udp, 60-71 ipv4_tcp, 73-86 ipv4_icmp_info,
    139-154 ipv4_icmp, 156-196 the IPv6 ones, 256-274 ipv6_icmp, 283-332 determine_in_tuple *)
Definition determine_in_tuple (k : pkt) : nverdict * option view :=
  let view l4 seg sl dl := (Continue, Some (View (k_fam k) (k_src k) (k_dst k) l4 false seg (k_src k, sl) (k_dst k, dl) l4)) in
  let none := Seg (k_fam k) false false false in
  match k_l4 k with
  | LUdp s d => view UDP none s d
  | LTcp s d syn fin rst => view TCP (Seg (k_fam k) syn fin rst) s d
  | LIcmp ty id i =>
    if match k_fam k with V6 => is_icmp6_info ty | V4 => is_icmp4_info ty end then view ICMP none id id
    else if match k_fam k with V6 => is_icmp6_error ty | V4 => is_icmp4_error ty end then icmp_err k i
    else (Untranslatable, None)
  | LOther => (Untranslatable, None)
  end.

(** ** The database *)

(** db.c:166-175 struct bib: one table per protocol *)
Record db := Db { d_udp : tb; d_tcp : tb; d_icmp : tb }.
Definition init_db : db := Db init_table init_table init_table.
(** db.c:287-302 get_table; the callers have dealt with the other protocols *)
Definition get_table (s : db) (p : proto) : tb :=
  match p with UDP => d_udp s | TCP => d_tcp s | ICMP => d_icmp s | OTHER => init_table end.
Definition set_table (s : db) (p : proto) (t : tb) : db :=
  match p with
  | UDP => Db t (d_tcp s) (d_icmp s)
  | TCP => Db (d_udp s) t (d_icmp s)
  | ICMP => Db (d_udp s) (d_tcp s) t
  | OTHER => s
  end.

(** Configuration: pool6, pool4, drop-icmpv6-info and what the tables use. *)
Record xconf := XConf { g_cfg : cfg; g_pool6 : prefix6; g_drop_info : bool; g_pool4 : pool4 }.
(** What the world decides while a packet goes through: the node's addresses, the
    packet's mark and identity, the hash and counter of rfc6056, the address routing
    would use, the allocation in mask_domain_find, the clock, the allocations in
    the tables. *)
Record env := Env {
  n_ifas : list (Z * bool); n_mark : Z; n_skb : Z; n_hash : Z; n_eph : Z; n_route : option Z; n_kro : kro; n_now : Z; n_al : list bool }.

(** ** Filtering and updating *)

(** The result: verdict, entries, database and what the table sent. *)
Definition fu := (nverdict * entries * db * list ev)%type.

(** filtering_and_updating.c:103-109 xlat_dst_6to4 *)
Definition xlat_dst_6to4 (g : xconf) (v : view) : option ta :=
  match rfc6052_6to4 (g_pool6 g) (fst (v_dst v)) with Some a => Some (a, snd (v_dst v)) | None => None end.
(** filtering_and_updating.c:174-177 and 472-475 *)
Definition xlat_src_4to6 (g : xconf) (v : view) : option ta :=
  match rfc6052_4to6 (g_pool6 g) (fst (v_src v)) with Some a => Some (a, snd (v_src v)) | None => None end.

(** filtering_and_updating.c:120-151 ipv6_simple *)
Definition ipv6_simple (g : xconf) (n : env) (s : db) (v : view) : res fu :=
  match xlat_dst_6to4 g v with
  | None => Ok (Dropped, NoEntry, s, [])
  | Some dst4 =>
    let! f := mask_domain_find (g_pool4 g) (v_pr v) (n_mark n) (n_hash n) (n_eph n) (n_route n) (n_kro n) in
    match f with
    | Drop => Ok (Dropped, NoEntry, s, [])
    | Domain d =>
      let! r := bib_add6 (g_cfg g) (v_pr v) (get_table s (v_pr v)) d (v_src v) (v_dst v) dst4 (n_now n) (n_al n) in
      let '(e, en, t, evs) := r in
      Ok (match e with OK => Continue | Err _ => Dropped end, en, set_table s (v_pr v) t, evs)
    end
  end.

(** filtering_and_updating.c:163-195 ipv4_simple *)
Definition ipv4_simple (g : xconf) (n : env) (s : db) (v : view) : res fu :=
  match xlat_src_4to6 g v with
  | None => Ok (Dropped, NoEntry, s, [])
  | Some dst6 =>
    let! r := bib_add4 (g_cfg g) (v_pr v) (get_table s (v_pr v)) (v_dst v) (v_src v) dst6 (n_now n) (n_al n) in
    let '(e, en, t) := r in
    Ok (match e with OK => Continue | Err ESRCH => Untranslatable | Err _ => Dropped end, en, set_table s (v_pr v) t, [])
  end.

Definition of_verdict (v : verdict) : nverdict :=
  match v with VContinue => Continue | VDrop | VDropIcmp => Dropped | VStolen => Stolen end.

(** filtering_and_updating.c:437-460 ipv6_tcp *)
Definition ipv6_tcp (g : xconf) (n : env) (s : db) (v : view) : res fu :=
  match xlat_dst_6to4 g v with
  | None => Ok (Dropped, NoEntry, s, [])
  | Some dst4 =>
    let! f := mask_domain_find (g_pool4 g) (v_pr v) (n_mark n) (n_hash n) (n_eph n) (n_route n) (n_kro n) in
    match f with
    | Drop => Ok (Dropped, NoEntry, s, [])
    | Domain d =>
      let! r := bib_add_tcp6 (g_cfg g) (d_tcp s) d (v_src v) (v_dst v) dst4 (v_seg v) (n_now n) (n_al n) in
      let '(x, en, t, evs) := r in Ok (of_verdict x, en, set_table s TCP t, evs)
    end
  end.

(** filtering_and_updating.c:465-482 ipv4_tcp *)
Definition ipv4_tcp (g : xconf) (n : env) (s : db) (v : view) : res fu :=
  match xlat_src_4to6 g v with
  | None => Ok (Dropped, NoEntry, s, [])
  | Some dst6 =>
    let! r := bib_add_tcp4 (g_cfg g) (d_tcp s) (v_dst v) (v_src v) dst6 (v_seg v) (n_skb n) (n_now n) (n_al n) in
    let '(x, en, t, evs) := r in Ok (of_verdict x, en, set_table s TCP t, evs)
  end.

(** filtering_and_updating.c:499-532: what goes no further, and what skips the tables *)
Definition fu_admit (g : xconf) (n : env) (v : view) : res (option nverdict) :=
  match v_fam v with
  | V6 =>
    if prefix6_contains (g_pool6 g) (v_saddr v) then Ok (Some Dropped)
    else if negb (prefix6_contains (g_pool6 g) (v_daddr v)) then Ok (Some Untranslatable)
    else Ok (if v_err v then Some Continue else None)
  | V4 =>
    let! b := pool4db_contains (g_pool4 g) (n_ifas n) (v_pr v) (fst (v_dst v)) (snd (v_dst v)) in
    if negb b then Ok (Some Untranslatable)
    else Ok (if v_err v then Some Continue else None)
  end.

(** filtering_and_updating.c:541-583 *)
Definition fu_update (g : xconf) (n : env) (s : db) (v : view) : res fu :=
  match v_l4 v, v_fam v with
  | UDP, V6 => ipv6_simple g n s v
  | UDP, V4 => ipv4_simple g n s v
  | TCP, V6 => ipv6_tcp g n s v
  | TCP, V4 => ipv4_tcp g n s v
  | ICMP, V6 => if g_drop_info g then Ok (Dropped, NoEntry, s, []) else ipv6_simple g n s v
  | ICMP, V4 => ipv4_simple g n s v
  | OTHER, _ => Ok (Dropped, NoEntry, s, [])
  end.

(** filtering_and_updating.c:491-587 filtering_and_updating *)
Definition filtering_and_updating (g : xconf) (n : env) (s : db) (v : view) : res fu :=
  let! a := fu_admit g n v in
  match a with
  | Some x => Ok (x, NoEntry, s, [])
  | None => fu_update g n s v
  end.

(** ** The outgoing tuple *)

(** db.c:1900-1925 bib_find *)
Definition bib_find (s : db) (v : view) : res (option (ta * ta)) :=
  let t := get_table s (v_pr v) in
  let! r := match v_fam v with V6 => bib_find6 t (v_src v) | V4 => bib_find4 t (v_dst v) end in
  Ok (match r with Some (s6, s4, _) => Some (s6, s4) | None => None end).

(** compute_outgoing_tuple.c:11-30 find_bib: the addresses of the mapping *)
Definition find_bib (s : db) (v : view) (en : entries) : res (option (ta * ta)) :=
  match en with
  | NoEntry => bib_find s v
  | BibOnly s6 s4 => Ok (Some (s6, s4))
  | Session e => Ok (Some (e_src6 e, e_src4 e))
  end.

(** types.h tuple; the l4_proto is the incoming tuple's *)
Record otuple := Out { o_src : ta; o_dst : ta }.

(** compute_outgoing_tuple.c:32-50 xlat_addr64 and xlat_addr46, 52-94 compute_out_tuple *)
Definition compute_out_tuple (g : xconf) (s : db) (v : view) (en : entries) : res (nverdict * option otuple) :=
  let! b := find_bib s v en in
  match b with
  | None => Ok (Untranslatable, None)
  | Some (s6, s4) =>
    Ok (match v_fam v with
        | V6 =>
          match rfc6052_6to4 (g_pool6 g) (fst (v_dst v)) with
          | None => (Untranslatable, None)
          | Some a => (Continue, Some (Out s4 (a, match v_pr v with ICMP => snd s4 | _ => snd (v_dst v) end)))
          end
        | V4 =>
          match rfc6052_4to6 (g_pool6 g) (fst (v_src v)) with
          | None => (Untranslatable, None)
          | Some a => (Continue, Some (Out (a, match v_pr v with ICMP => snd s6 | _ => snd (v_src v) end) s6))
          end
        end)
  end.

(** ** The core *)

Definition flip (f : fam) : fam := match f with V6 => V4 | V4 => V6 end.

(** The translated packet, seen as an incoming one (handling_hairpinning_nat64.c:53).
    Its addresses are the tuple's; in ICMP errors the outer source may be another,
    which only IPv6 packets' filtering looks at, and this one is IPv4. *)
Definition hairpin_view (v : view) (o : otuple) : view :=
  View (flip (v_fam v)) (fst (o_src o)) (fst (o_dst o)) (v_l4 v) (v_err v)
    (Seg (flip (v_fam v)) (sg_syn (v_seg v)) (sg_fin (v_seg v)) (sg_rst (v_seg v))) (o_src o) (o_dst o) (v_pr v).

(** handling_hairpinning_nat64.c:17-33 is_hairpin_nat64 *)
Definition is_hairpin (g : xconf) (n : env) (v : view) (o : otuple) : res bool :=
  match v_fam v with
  | V4 => Ok false
  | V6 => pool4db_contains (g_pool4 g) (n_ifas n) (v_pr v) (fst (o_dst o)) (snd (o_dst o))
  end.

(** The outcome: what is sent (from and to; the family tells the direction), or the verdict. *)
Inductive outcome := Sent (f : fam) (o : otuple) | Refused (v : nverdict).

(** Steps two and three: filtering_and_updating.c:491-587, compute_outgoing_tuple.c:52-94,
    as in core.c:36-41 and handling_hairpinning_nat64.c:56-61 *)
Definition steps23 (g : xconf) (n : env) (s : db) (v : view) : res (outcome * db * list ev) :=
  let! r := filtering_and_updating g n s v in
  let '(x, en, s, evs) := r in
  match x with
  | Continue =>
    let! o := compute_out_tuple g s v en in
    match o with
    | (Continue, Some o) => Ok (Sent (flip (v_fam v)) o, s, evs)
    | (x, _) => Ok (Refused x, s, evs)
    end
  | _ => Ok (Refused x, s, evs)
  end.

(** core.c:28-69 core_common and handling_hairpinning_nat64.c:43-72
    handling_hairpinning_nat64.  [x1], [x2]: verdicts of translating_the_packet (and,
    for the packet that leaves, of sendpkt_send).  [nm]: allocation of the second
    xlation. [n2]: the world at the second pass. *)
Definition core_common (g : xconf) (n n2 : env) (nm : bool) (x1 x2 : nverdict) (s : db) (k : pkt) : res (outcome * db * list ev) :=
  match determine_in_tuple k with
  | (Continue, Some v) =>
    let! r := steps23 g n s v in
    let '(o, s, evs) := r in
    match o, x1 with
    | Sent f o, Continue =>
      let! h := is_hairpin g n v o in
      if h then
        if nm then
          let! r := steps23 g n2 s (hairpin_view v o) in
          let '(o, s, evs') := r in
          match o, x2 with
          | Sent _ _, Continue => Ok (o, s, evs ++ evs')
          | Sent _ _, x => Ok (Refused x, s, evs ++ evs')
          | Refused x, _ => Ok (Refused x, s, evs ++ evs')
          end
        else Ok (Refused Dropped, s, evs)
      else Ok (Sent f o, s, evs)
    | Sent _ _, x => Ok (Refused x, s, evs)
    | Refused x, _ => Ok (Refused x, s, evs)
    end
  | (x, _) => Ok (Refused x, s, [])
  end.
