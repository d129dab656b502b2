(** What becomes of a packet: the hooks, the core, hairpinning, the buffers of the
    outgoing packets, the counters and the ICMP errors.
    Sources: src/mod/common/core.c, src/mod/common/translation_state.c,
    src/mod/common/rfc7915/core.c, src/mod/common/rfc7915/6to4.c,
    src/mod/common/rfc7915/4to6.c, src/mod/common/rfc7915/common.c,
    src/mod/common/steps/send_packet.c,
    src/mod/common/steps/handling_hairpinning_nat64.c,
    src/mod/common/steps/handling_hairpinning_siit.c,
    src/mod/common/icmp_wrapper.c, src/mod/common/kernel_hook_netfilter.c,
    src/mod/common/kernel_hook_iptables.c, src/common/stats.h.
    Each function yields the list of what it did: counters, memory and references
    taken and released, packets sent, errors sent.  What the steps decide (other
    files model that) is an argument.  Simplified: no logging; the counters that do
    not tell a packet's fate (BIB entries, sessions, joold, ICMP extensions) are
    left out; the payload pages shared by a copy are not followed. *)
Require Import Verif.Base.

(** ** Verdicts and what steps answer *)

(** types.h:23-56 verdict *)
Inductive verdict := Continue | Drop | Untranslatable | Stolen.

(** icmp_wrapper.h:24-34 icmp_errcode; ICMPERR_NONE is [None] in [x_icmp] *)
Inductive icmp_errcode := AddrUnreachable | PortUnreachable | ProtoUnreachable | Ttl | FragNeeded | HdrField | SrcRoute | Filter.

(** stats.h:14-117 jool_stat_id, those the functions below name *)
Definition RECEIVED6 := 1.
Definition RECEIVED4 := 2.
Definition SUCCESS := 3.
Definition ENOMEM := 6.
Definition XLATOR_DISABLED := 7.
Definition POOL6_UNSET := 8.
Definition J64_PSKB_COPY := 41.
Definition J46_PSKB_COPY := 52.
Definition FAILED_ROUTES := 61.
Definition DST_OUTPUT := 63.
Definition ICMP6ERR_SUCCESS := 64.
Definition ICMP6ERR_FAILURE := 65.
Definition ICMP4ERR_SUCCESS := 66.
Definition ICMP4ERR_FAILURE := 67.
Definition UNKNOWN := 83.

(** Every step of the core other than the ones below returns VERDICT_CONTINUE or
    what one of the functions of translation_state.c:45-79 returned *)
Inductive step :=
| Go
| Untr (j : Z)
| UntrIcmp (j : Z) (e : icmp_errcode) (info : Z)
| Refuse (j : Z)
| RefuseIcmp (j : Z) (e : icmp_errcode) (info : Z).

(** db/bib/db.c:1841-1877: besides, filtering and updating can keep the packet *)
Inductive fstep := Plain (s : step) | Stored (j : Z).

(** ** Events *)

(** Things that are allocated and freed, or counted references.  Pass 0 is the
    normal one, pass 1 the second one of a hairpin. *)
Inductive thing :=
| Incoming                  (* the sk_buff the kernel gave us *)
| Xlation (p : nat)         (* struct xlation *)
| Instance                  (* the reference to the instance: xlator_find, xlator_put *)
| Copy (p i : nat)          (* the i-th outgoing sk_buff *)
| Rebuilt (p : nat)         (* the one fix_ie makes *)
| Route (p i : nat)         (* the reference to the dst_entry of the i-th sk_buff *)
| RebuiltRoute (p : nat).

Inductive ipv := P4 | P6.

Inductive event :=
| Count (j : Z)                              (* jstat_inc *)
| Take (t : thing)                           (* allocated, or reference obtained *)
| Free (t : thing)                           (* freed, or reference released *)
| Output (t r : thing)                       (* dst_output: consumes both *)
| Keep (t : thing)                           (* now belongs to the BIB *)
| Error (f : ipv) (t : thing) (ty code info : Z). (* icmp_send, icmpv6_send about [t] *)

(** translation_state.h:45-83 struct xlation: result, dst, out.skb (a list linked by
    next, each with its dst) *)
Record xl := Xl { x_icmp : option (icmp_errcode * Z); x_dst : option thing; x_out : list (thing * option thing) }.

Definition fresh : xl := Xl None None [].

Definition M := xl -> list event * verdict * xl.

(** The idiom "if (result != VERDICT_CONTINUE) return result;" *)
Definition seq (f g : M) : M := fun x =>
  let '(e, v, x) := f x in
  match v with
  | Continue => let '(e', v, x) := g x in (e ++ e', v, x)
  | _ => (e, v, x)
  end.
Notation "f ;; g" := (seq f g) (at level 60, right associativity).

(** The idiom "if (result != VERDICT_CONTINUE) goto revert;" *)
Definition reverting (f : M) (revert : xl -> list event * xl) : M := fun x =>
  let '(e, v, x) := f x in
  match v with
  | Continue => (e, v, x)
  | _ => let '(e', x) := revert x in (e ++ e', v, x)
  end.

(** translation_state.c:45-49 untranslatable, 51-58 untranslatable_icmp, 60-64 drop,
    66-73 drop_icmp *)
Definition act (s : step) : M := fun x =>
  match s with
  | Go => ([], Continue, x)
  | Untr j => ([Count j], Untranslatable, x)
  | UntrIcmp j e i => ([Count j], Untranslatable, Xl (Some (e, i)) (x_dst x) (x_out x))
  | Refuse j => ([Count j], Drop, x)
  | RefuseIcmp j e i => ([Count j], Drop, Xl (Some (e, i)) (x_dst x) (x_out x))
  end.

(** translation_state.c:75-79 stolen, with pkt_queue.c pktqueue_add or db.c:1870: what
    is kept is pkt_original_pkt(pkt)->skb *)
Definition filter (s : fstep) : M :=
  match s with
  | Plain s => act s
  | Stored j => fun x => ([Count j; Keep Incoming], Stolen, x)
  end.

(** kfree_skb: the sk_buff's dst goes with it *)
Definition kfree_skb (b : thing * option thing) : list event :=
  match snd b with Some r => [Free r; Free (fst b)] | None => [Free (fst b)] end.

(** dst_release(state->dst); state->dst = NULL, if it is not *)
Definition dst_release (x : xl) : list event * xl :=
  match x_dst x with
  | Some r => ([Free r], Xl (x_icmp x) None (x_out x))
  | None => ([], x)
  end.

(** ** What the world and the other steps decide in one pass *)

Inductive fix_outcome := NoFix | Fixed | FixNoMem | FixTorn.

Record pass := Pass {
  q_in : step;              (* determine_in_tuple *)
  q_early : bool;           (* NAT64, IPv6, empty pool4: filtering routes the packet *)
  q_filter : fstep;         (* filtering_and_updating *)
  q_tuple : step;           (* compute_out_tuple *)
  q_flow : step;            (* compute_flowix64, compute_flowix46 *)
  q_found : bool;           (* route4, route6 found a route *)
  q_saddr : step;           (* the selection of a source address *)
  q_size : step;            (* the checks of sizes *)
  q_error : bool;           (* pkt_is_icmp4_error, pkt_is_icmp6_error *)
  q_more : nat;             (* sk_buffs to create besides the first, if allocate_slow is called *)
  q_short : option (nat * bool); (* which allocation fails; true: its skb_copy_bits *)
  q_l3 : step;              (* xlat_outer_l3 *)
  q_l4 : bool;              (* has_l4_hdr *)
  q_fix : fix_outcome;      (* fix_ie *)
  q_l4xlat : step;          (* the rest of the translation of the transport header *)
  q_null : bool;            (* has_null_page *)
  q_hairpin : bool;         (* is_hairpin *)
  q_lacking : nat -> bool;  (* dst_output of the i-th one fails *)
}.

(** 4to6.c:719-724: ICMP errors are not fragmented by us *)
Definition more (q : pass) : nat := if q_error q then O else q_more q.

(** handle_icmp_extension is only called for ICMP errors *)
Definition fixes (q : pass) : fix_outcome := if q_error q then q_fix q else NoFix.

(** ** Outgoing buffers *)

(** 6to4.c:294-335 __predict_route64; [hp]: state->is_hairpin *)
Definition predict_route64_ (p : nat) (q : pass) (hp : bool) : M :=
  (fun x =>
     if hp then ([], Continue, x)
     else if q_found q then ([Take (Route p 0)], Continue, Xl (x_icmp x) (Some (Route p 0)) (x_out x))
     else ([Count FAILED_ROUTES], Untranslatable, x)) ;;
  reverting (act (q_saddr q)) dst_release.

(** 6to4.c:337-355 predict_route64; [set]: state->flowx_set *)
Definition predict_route64 (p : nat) (q : pass) (hp set : bool) : M :=
  (if set then act Go else act (q_flow q)) ;;
  (fun x => match x_dst x with Some _ => ([], Continue, x) | None => predict_route64_ p q hp x end).

(** 6to4.c:434-526 ttp64_alloc_skb *)
Definition ttp64_alloc_skb (p : nat) (q : pass) (hp set : bool) : M :=
  predict_route64 p q hp set ;;
  reverting (act (q_size q) ;;
    (fun x =>
       match q_short q with
       | Some _ => ([Count J64_PSKB_COPY], Drop, x)
       | None => ([Take (Copy p 0)], Continue, Xl (x_icmp x) None [(Copy p 0, x_dst x)])
       end)) dst_release.

(** 4to6.c:249-287 predict_route46 *)
Definition predict_route46 (p : nat) (q : pass) : M :=
  (fun x =>
     if q_found q then ([Take (Route p 0)], Continue, Xl (x_icmp x) (Some (Route p 0)) (x_out x))
     else ([Count FAILED_ROUTES], Untranslatable, x)) ;;
  reverting (act (q_saddr q)) dst_release.

(** kfree_skb_list *)
Definition kfree_skb_list (l : list (thing * option thing)) : list event := flat_map kfree_skb l.

(** 4to6.c:398-476 allocate_fast, 478-547 allocate_slow: [n] sk_buffs left to create,
    the next one is the [i]-th; the loop of lines 498-539 and its "fail" label *)
Fixpoint allocate_slow (p i n : nat) (short : option (nat * bool)) (x : xl) : list event * verdict * xl :=
  match n with
  | O => ([], Continue, x)
  | S n =>
    let fail x := (kfree_skb_list (x_out x) ++ [Count ENOMEM], Drop, Xl (x_icmp x) (x_dst x) []) in
    let x' := Xl (x_icmp x) (x_dst x) (x_out x ++ [(Copy p i, None)]) in
    match short with
    | Some (k, torn) =>
      if Nat.eqb k i then
        if torn then let '(e, v, x) := fail x' in (Take (Copy p i) :: e, v, x) else fail x
      else let '(e, v, x) := allocate_slow p (S i) n short x' in (Take (Copy p i) :: e, v, x)
    | None => let '(e, v, x) := allocate_slow p (S i) n short x' in (Take (Copy p i) :: e, v, x)
    end
  end.

Definition allocate_fast (p : nat) (short : option (nat * bool)) : M := fun x =>
  match short with
  | Some _ => ([Count J46_PSKB_COPY], Drop, x)
  | None => ([Take (Copy p 0)], Continue, Xl (x_icmp x) (x_dst x) [(Copy p 0, None)])
  end.

(** 4to6.c:549-560 autofill_dst: the first one gets state->dst, the others clones *)
Definition autofill_dst (p : nat) (x : xl) : list event * xl :=
  match x_out x with
  | [] => ([], x)
  | (b, _) :: l =>
    let clones := map (fun i => Route p (S i)) (List.seq 0 (length l)) in
    (map Take clones, Xl (x_icmp x) None ((b, x_dst x) :: combine (map fst l) (map Some clones)))
  end.

(** 4to6.c:562-765 ttp46_alloc_skb; one sk_buff: allocate_fast *)
Definition ttp46_alloc_skb (p : nat) (q : pass) : M :=
  act (q_flow q) ;;
  predict_route46 p q ;;
  reverting (act (q_size q) ;;
    (match more q with
     | O => allocate_fast p (q_short q)
     | S _ => allocate_slow p 0 (S (more q)) (q_short q)
     end)) dst_release ;;
  (fun x => let '(e, x) := autofill_dst p x in (e, Continue, x)).

(** common.c:248-313 fix_ie: the new sk_buff has no next one *)
Definition fix_ie (p : nat) (o : fix_outcome) : M := fun x =>
  match o, x_out x with
  | NoFix, _ | _, [] => ([], Continue, x)
  | FixNoMem, _ => ([Count ENOMEM], Drop, x)
  | FixTorn, _ => ([Take (Rebuilt p); Count UNKNOWN], Drop, x)
  | Fixed, (b, Some r) :: _ =>
    ([Take (Rebuilt p); Take (RebuiltRoute p)] ++ kfree_skb (b, Some r), Continue,
     Xl (x_icmp x) (x_dst x) [(Rebuilt p, Some (RebuiltRoute p))])
  | Fixed, (b, None) :: _ =>
    (Take (Rebuilt p) :: kfree_skb (b, None), Continue, Xl (x_icmp x) (x_dst x) [(Rebuilt p, None)])
  end.

(** rfc7915/core.c:40-53 __kfree_skb_list *)
Definition kfree_skb_list_ (q : pass) (x : xl) : list event * xl :=
  (if q_null q then [] else kfree_skb_list (x_out x), Xl (x_icmp x) (x_dst x) []).

(** rfc7915/core.c:55-100 translating_the_packet of a packet of family [f];
    common.c:168-177 xlat_l4_function *)
Definition translating_the_packet (p : nat) (q : pass) (f : ipv) (hp set : bool) : M :=
  (match f with P6 => ttp64_alloc_skb p q hp set | P4 => ttp46_alloc_skb p q end) ;;
  reverting (act (q_l3 q) ;; (if q_l4 q then fix_ie p (fixes q) ;; act (q_l4xlat q) else act Go)) (kfree_skb_list_ q).

(** ** Sending *)

(** send_packet.c:8-30 __sendpkt_send and 32-50 sendpkt_send; [i]: number of the
    sk_buff.  Nobody looks at out.skb afterwards, except to free a hairpin's. *)
Fixpoint sendpkt_list (q : pass) (i : nat) (l : list (thing * option thing)) : list event * verdict :=
  match l with
  | [] => ([], Continue)
  | (b, None) :: l => (Count UNKNOWN :: kfree_skb_list l, Drop)
  | (b, Some r) :: l =>
    if q_lacking q i then (Output b r :: Count DST_OUTPUT :: kfree_skb_list l, Drop)
    else let '(e, v) := sendpkt_list q (S i) l in (Output b r :: e, v)
  end.

Definition sendpkt_send (q : pass) : M := fun x =>
  let '(e, v) := sendpkt_list q 0 (x_out x) in (e, v, Xl (x_icmp x) (x_dst x) []).

(** ** The core *)

Inductive xtype := SIIT | NAT64.

(** xlator.h struct xlator, globals.h: what the core looks at *)
Record conf := Conf { c_type : xtype; c_enabled : bool; c_pool6 : bool }.

Definition flip (f : ipv) : ipv := match f with P4 => P6 | P6 => P4 end.

(** db/pool4/empty.c:45-54 in filtering_and_updating: the packet is routed before it
    is filtered, if it is IPv6 *)
Definition early (c : conf) (f : ipv) (q : pass) : bool :=
  match c_type c, f with NAT64, P6 => q_early q | _, _ => false end.

Definition filtering (c : conf) (f : ipv) (p : nat) (q : pass) : M :=
  (if early c f q then predict_route64 p q false false else act Go) ;; filter (q_filter q).

(** translation_state.c:38-43 xlation_destroy *)
Definition xlation_destroy (p : nat) (x : xl) : list event := fst (dst_release x) ++ [Free (Xlation p)].

(** handling_hairpinning_nat64.c:43-72, handling_hairpinning_siit.c:13-36; [f]: family of the
    packet that U-turns; [None]: xlation_create failed *)
Definition handling_hairpinning (c : conf) (f : ipv) (q2 : option pass) : list event * verdict :=
  match q2 with
  | None => ([], Drop)
  | Some q =>
    let '(e, v, x) :=
      ((match c_type c with
        | NAT64 => filtering c f 1 q ;; act (q_tuple q)
        | SIIT => act Go
        end) ;; translating_the_packet 1 q f true (early c f q) ;; sendpkt_send q) fresh in
    (Take (Xlation 1) :: e ++ xlation_destroy 1 x, v)
  end.

(** core.c:28-69 core_common, from line 44 on: [x] has the translated packet.
    skb_dst_drop, kfree_skb of the first sk_buff *)
Definition deliver (c : conf) (f : ipv) (q : pass) (q2 : option pass) : M := fun x =>
  if q_hairpin q then
    match x_out x with
    | [] => ([], Drop, x)
    | (b, r) :: _ =>
      let '(e, v) := handling_hairpinning c (flip f) q2 in
      (match r with Some r => [Free r] | None => [] end ++ e ++ [Free b], v, Xl (x_icmp x) (x_dst x) [])
    end
  else sendpkt_send q x.

(** core.c:28-69 core_common; line 67: the original packet is freed *)
Definition core_common (c : conf) (f : ipv) (q : pass) (q2 : option pass) : M :=
  (match c_type c with
   | NAT64 => act (q_in q) ;; filtering c f 0 q ;; act (q_tuple q)
   | SIIT => act Go
   end) ;;
  translating_the_packet 0 q f (match c_type c with SIIT => q_hairpin q | NAT64 => false end) (early c f q) ;;
  deliver c f q q2 ;;
  (fun x => ([Free Incoming; Count SUCCESS], Stolen, x)).

(** core.c:14-26 validate_xlator *)
Definition validate_xlator (c : conf) : M :=
  if negb (c_enabled c) then act (Untr XLATOR_DISABLED)
  else match c_type c with
       | NAT64 => if negb (c_pool6 c) then act (Untr POOL6_UNSET) else act Go
       | SIIT => act Go
       end.

(** icmp_wrapper.c:59-111 icmp64_send4; [dev]: skb->dev is set, [routed]: ip_route_input
    succeeds *)
Definition icmp64_send4 (dev routed : bool) (e : icmp_errcode) (info : Z) : list event * bool :=
  if negb dev || negb routed then ([], false)
  else
    let send ty code := ([Error P4 Incoming ty code info], true) in
    match e with
    | AddrUnreachable => send 3 1
    | PortUnreachable => send 3 3
    | ProtoUnreachable => send 3 2
    | Ttl => send 11 0
    | FragNeeded => send 3 4
    | Filter => send 3 13
    | SrcRoute => send 3 5
    | HdrField => ([], false)
    end.

(** icmp_wrapper.c:113-156 icmp64_send6 *)
Definition icmp64_send6 (dev : bool) (e : icmp_errcode) (info : Z) : list event * bool :=
  if negb dev then ([], false)
  else
    let send ty code := ([Error P6 Incoming ty code info], true) in
    match e with
    | AddrUnreachable => send 1 3
    | PortUnreachable | ProtoUnreachable => send 1 4
    | Ttl => send 3 0
    | Filter => send 1 1
    | HdrField => send 4 0
    | FragNeeded => send 2 0
    | SrcRoute => ([], false)
    end.

(** core.c:71-85 send_icmp4_error, 120-134 send_icmp6_error *)
Definition send_icmp_error (f : ipv) (dev routed : bool) (v : verdict) (x : xl) : list event :=
  match x_icmp x, v with
  | None, _ | _, Untranslatable => []
  | Some (e, info), _ =>
    let '(s, ok) := match f with P4 => icmp64_send4 dev routed e info | P6 => icmp64_send6 dev e info end in
    s ++ [Count (match f with
                 | P4 => if ok then ICMP4ERR_SUCCESS else ICMP4ERR_FAILURE
                 | P6 => if ok then ICMP6ERR_SUCCESS else ICMP6ERR_FAILURE
                 end)]
  end.

(** What the world decides for a packet: pkt_init_ipv6, pkt_init_ipv4; the passes; whether
    there is memory for the second xlation *)
Record world := World {
  w_mem : bool;             (* xlation_create in the hook *)
  w_found : bool;           (* find_instance *)
  w_init : step; w_pass : pass; w_second : option pass; w_dev : bool; w_routed : bool }.

(** core.c:87-118 core_4to6, 136-167 core_6to4 *)
Definition core (c : conf) (f : ipv) (w : world) : list event * verdict * xl :=
  let '(e, v, x) := (validate_xlator c ;; act (w_init w) ;; core_common c f (w_pass w) (w_second w)) fresh in
  (Count (match f with P4 => RECEIVED4 | P6 => RECEIVED6 end) :: e ++ send_icmp_error f (w_dev w) (w_routed w) v x, v, x).

Inductive hook := Netfilter | Iptables.
Inductive answer := Accept | Dropped | Taken | TableContinue.

(** kernel_hook_netfilter.c:33-52 verdict2netfilter, kernel_hook_iptables.c:69-88 verdict2iptables *)
Definition answer_of (h : hook) (v : verdict) : answer :=
  match v with
  | Stolen => Taken
  | Untranslatable | Continue => match h with Netfilter => Accept | Iptables => TableContinue end
  | Drop => Dropped
  end.

(** kernel_hook_netfilter.c:54-80 hook_ipv6, 82-108 hook_ipv4; kernel_hook_iptables.c:90-117 target_ipv6,
    119-146 target_ipv4 *)
Definition hook_packet (h : hook) (c : conf) (f : ipv) (w : world) : list event * answer :=
  if negb (w_mem w) then ([], Dropped)
  else if negb (w_found w) then ([Take (Xlation 0); Free (Xlation 0)], answer_of h Untranslatable)
  else
    let '(e, v, x) := core c f w in
    ([Take (Xlation 0); Take Instance] ++ e ++ [Free Instance] ++ xlation_destroy 0 x, answer_of h v).
