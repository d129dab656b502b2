(** Model of how SIIT translates the addresses of a packet:
    src/mod/common/address_xlat.c, steps/compute_outgoing_tuple_siit.c,
    steps/handling_hairpinning_siit.c, the entry points of db/rfc6791v4.c and
    db/rfc6791v6.c, the address parts of rfc7915/6to4.c and rfc7915/4to6.c, and
    the address queries of nl/address.c.

    Simplifications: a packet is its addresses, hop limit and whether it is an
    ICMP error, plus the same for the packet inside an error; every step that
    does not look at addresses is assumed to succeed; the routing table and the
    random numbers are the argument [luck]. *)
Require Import Verif.Base Verif.Addr_Model Verif.Rtrie_Model Verif.Eam_Model Verif.Deny_Model.

(** enum eam_hairpinning_mode: src/common/config.h:583-587 *)
Definition EHM_OFF : Z := 0.
Definition EHM_SIMPLE : Z := 1.
Definition EHM_INTRINSIC : Z := 2.

(** The parts of struct xlator and struct jool_globals (config.h) read here;
    [None] stands for an unset prefix. *)
Record siit := Siit {
  s_eamt : eamt; s_deny : list prefix4; s_ifas : list ifaddr;
  s_pool6 : option prefix6; s_mode : Z;
  s_6791v4 : option prefix4; s_6791v6 : option prefix6; s_random : bool }.

(** struct address_translation_entry: the method and what it used *)
Inductive method := AXM_RFC6052 (p : prefix6) | AXM_EAMT (e : eam) | AXM_RFC6791.

(** address_xlat.h:19-33 addrxlat_verdict, together with the output *)
Inductive addrxlat := XContinue (a : Z) (m : method) | XTryElse | XAccept | XDrop.

(** address_xlat.c:8-18 is_illegal_source *)
Definition is_illegal_source (a : Z) : bool :=
  (quadrant a 0 =? 0) && (quadrant a 1 =? 0) && (quadrant a 2 =? 0) && (quadrant a 3 =? 1).

(** address_xlat.c:20-24 must_not_translate *)
Definition must_not_translate (st : siit) (a : Z) : bool :=
  addr4_is_scope_subnet a || interface_contains (s_ifas st) a.

(** address_xlat.c:67-76, the label success of addrxlat_siit64 *)
Definition siit64_success (st : siit) (a : Z) (m : method) (denylists : bool) : addrxlat :=
  if denylists && must_not_translate st a then XAccept else XContinue a m.

(** address_xlat.c:34-77 addrxlat_siit64; the lookup answers 0 or -ESRCH
    (db/eam.c), so the "programming error" of line 51 cannot be reached *)
Definition addrxlat_siit64 (st : siit) (a6 : Z) (denylists : bool) : res addrxlat :=
  if is_illegal_source a6 then Ok XAccept else
  let! r := eamt_xlat_6to4 (s_eamt st) a6 in
  match r with
  | Some (a4, e) => Ok (siit64_success st a4 (AXM_EAMT e) denylists)
  | None =>
    match s_pool6 st with
    | None => Ok XTryElse
    | Some p =>
      match rfc6052_6to4 p a6 with
      | None => Ok XTryElse
      | Some a4 =>
        if denylists && denylist4_contains (s_deny st) a4 then Ok XAccept
        else Ok (siit64_success st a4 (AXM_RFC6052 p) denylists)
      end
    end
  end.

(** address_xlat.c:101-120, addrxlat_siit46 once the EAMT did not answer *)
Definition siit46_pool6 (st : siit) (a4 : Z) : addrxlat :=
  if denylist4_contains (s_deny st) a4 then XAccept else
  match s_pool6 st with
  | None => XTryElse
  | Some p => match rfc6052_4to6 p a4 with Some a6 => XContinue a6 (AXM_RFC6052 p) | None => XDrop end
  end.

(** address_xlat.c:79-121 addrxlat_siit46 *)
Definition addrxlat_siit46 (st : siit) (a4 : Z) (eam denylists : bool) : res addrxlat :=
  if denylists && must_not_translate st a4 then Ok XAccept else
  if eam then
    let! r := eamt_xlat_4to6 (s_eamt st) a4 in
    match r with
    | Some (a6, e) => Ok (XContinue a6 (AXM_EAMT e))
    | None => Ok (siit46_pool6 st a4)
    end
  else Ok (siit46_pool6 st a4).

(** The counters involved: src/common/stats.h:56-90 *)
Inductive stat := JSTAT64_SRC | JSTAT64_DST | JSTAT46_SRC | JSTAT46_DST
  | JSTAT64_6791_ENOENT | JSTAT46_6791_ENOENT | JSTAT_FAILED_ROUTES | JSTAT_UNKNOWN.

(** enum verdict (translation_state.h), with the counter that
    translation_state.c:45-66 increments *)
Inductive outcome (A : Type) := Continue (a : A) | Untranslatable (s : stat) | Drop (s : stat).
Arguments Continue {A}. Arguments Untranslatable {A}. Arguments Drop {A}.

(** The addresses of one IP header, whether it carries an ICMP error, and its
    hop limit. *)
Record leg := Leg { l_src : Z; l_dst : Z; l_err : bool; l_hop : Z }.

(** A packet; an ICMP error contains another packet. *)
Record packet := Packet { k_outer : leg; k_inner : option leg }.

(** What chance and the routing table supply: the random numbers of
    rfc6791v4.c:12 and rfc6791v6.c:30-36, whether there is a route, and the
    address of this node that suits it. *)
Record luck := Luck { u_n : Z; u_bytes : nat -> Z; u_byte : Z; u_route : bool; u_host : option Z }.

(** rfc6791v4.c:6-41 rfc6791v4_find: always succeeds; zero means "completed
    after routing" *)
Definition rfc6791v4_find (st : siit) (u : luck) (hop : Z) : Z :=
  match s_6791v4 st with
  | Some pool => rfc6791v4_get_pool_address pool (if s_random st then u_n u else hop)
  | None => 0
  end.

(** rfc6791v6.c:9-67 rfc6791v6_find *)
Definition rfc6791v6_find (st : siit) (u : luck) : Z :=
  match s_6791v6 st with
  | Some p => rfc6791v6_get_pool_address p (u_bytes u) (u_byte u)
  | None => 0
  end.

Definition is_6052 (m : method) : bool := match m with AXM_RFC6052 _ => true | _ => false end.

(** compute_outgoing_tuple_siit.c:66-80: conditions A and B; eamt_contains4 is
    only consulted when the rest holds.  The answer is the new value of
    state->is_hairpin. *)
Definition mark_hairpin64 (st : siit) (inner : bool) (l : leg) (src : Z) (msrc : method) (dst : Z) (mdst : method)
    (hairpin : bool) : res bool :=
  if s_mode st =? EHM_INTRINSIC then
    if negb inner && negb (l_err l) && is_6052 mdst then
      let! c := eamt_contains4 (s_eamt st) dst in
      Ok (if c : bool then true else hairpin)
    else if inner && is_6052 msrc then
      let! c := eamt_contains4 (s_eamt st) src in
      Ok (if c : bool then true else hairpin)
    else Ok hairpin
  else Ok hairpin.

(** compute_outgoing_tuple_siit.c:9-84 translate_addrs64_siit: destination
    first, then source; answers source, destination and state->is_hairpin.
    The counters are those of the code: lines 28 and 30 for the destination,
    52 and 54 for the source. *)
Definition translate_addrs64_siit (st : siit) (u : luck) (inner : bool) (l : leg) (hairpin : bool)
    : res (outcome (Z * Z * bool)) :=
  let! rd := addrxlat_siit64 st (l_dst l) true in
  match rd with
  | XTryElse => Ok (Untranslatable JSTAT64_SRC)
  | XAccept => Ok (Untranslatable JSTAT64_SRC)
  | XDrop => Ok (Drop JSTAT_UNKNOWN)
  | XContinue dst mdst =>
    let! rs := addrxlat_siit64 st (l_src l) (negb (l_err l)) in
    let finish src msrc :=
      let! h := mark_hairpin64 st inner l src msrc dst mdst hairpin in
      Ok (Continue (src, dst, h)) in
    match rs with
    | XContinue src msrc => finish src msrc
    | XTryElse => if l_err l then finish (rfc6791v4_find st u (l_hop l)) AXM_RFC6791
                  else Ok (Untranslatable JSTAT64_DST)
    | XAccept => Ok (Untranslatable JSTAT64_DST)
    | XDrop => Ok (Drop JSTAT_UNKNOWN)
    end
  end.

(** compute_outgoing_tuple_siit.c:86-97 disable_src_eam; [inner_dst] is the
    destination of the packet inside the error *)
Definition disable_src_eam (inner : bool) (l : leg) (inner_dst : Z) (hairpin : bool) : bool :=
  if negb hairpin || inner then false
  else if negb (l_err l) then true
  else l_src l =? inner_dst.

(** compute_outgoing_tuple_siit.c:99-102 disable_dst_eam *)
Definition disable_dst_eam (inner hairpin : bool) : bool := hairpin && inner.

(** compute_outgoing_tuple_siit.c:104-165 translate_addrs46_siit; [hairpin] is
    state->is_hairpin *)
Definition translate_addrs46_siit (st : siit) (u : luck) (inner : bool) (l : leg) (inner_dst : Z) (hairpin : bool)
    : res (outcome (Z * Z)) :=
  let is_hairpin := (s_mode st =? EHM_SIMPLE) || hairpin in
  let! rd := addrxlat_siit46 st (l_dst l) (negb (disable_dst_eam inner is_hairpin)) true in
  match rd with
  | XTryElse | XAccept => Ok (Untranslatable JSTAT46_DST)
  | XDrop => Ok (Drop JSTAT_UNKNOWN)
  | XContinue dst _ =>
    let! rs := addrxlat_siit46 st (l_src l) (negb (disable_src_eam inner l inner_dst is_hairpin)) (negb (l_err l)) in
    match rs with
    | XContinue src _ => Ok (Continue (src, dst))
    | XTryElse => if l_err l then Ok (Continue (rfc6791v6_find st u, dst))
                  else Ok (Untranslatable JSTAT46_SRC)
    | XAccept => Ok (Untranslatable JSTAT46_SRC)
    | XDrop => Ok (Drop JSTAT_UNKNOWN)
    end
  end.

(** Outer addresses and, for an error, inner addresses, after translation. *)
Record addrs := Addrs { a_src : Z; a_dst : Z; a_inner : option (Z * Z) }.

(** 6to4.c:28-79 xlat64_external_addresses and xlat64_internal_addresses, as
    compute_flowix64 (6to4.c:196-235) calls them: the inner ones only for ICMP
    errors *)
Definition compute_addrs64 (st : siit) (u : luck) (k : packet) : res (outcome (addrs * bool)) :=
  let! o := translate_addrs64_siit st u false (k_outer k) false in
  match o with
  | Untranslatable s => Ok (Untranslatable s)
  | Drop s => Ok (Drop s)
  | Continue (src, dst, h) =>
    match k_inner k with
    | None => Ok (Continue (Addrs src dst None, h))
    | Some l =>
      let! i := translate_addrs64_siit st u true l h in
      match i with
      | Untranslatable s => Ok (Untranslatable s)
      | Drop s => Ok (Drop s)
      | Continue (isrc, idst, h') => Ok (Continue (Addrs src dst (Some (isrc, idst)), h'))
      end
    end
  end.

(** 6to4.c:299-334 __predict_route64: routing is skipped when hairpinning; a
    source of zero is replaced by an address of this node *)
Definition predict_route64 (u : luck) (r : addrs) (hairpin : bool) : outcome addrs :=
  if negb hairpin && negb (u_route u) then Untranslatable JSTAT_FAILED_ROUTES
  else if a_src r =? 0 then
    match u_host u with
    | Some h => Continue (Addrs h (a_dst r) (a_inner r))
    | None => Drop JSTAT64_6791_ENOENT
    end
  else Continue r.

(** 4to6.c:38-87 xlat46_external_addresses and xlat46_internal_addresses, as
    compute_flowix46 (4to6.c:220-247) calls them *)
Definition compute_addrs46 (st : siit) (u : luck) (k : packet) (hairpin : bool) : res (outcome addrs) :=
  let inner_dst := match k_inner k with Some l => l_dst l | None => 0 end in
  let! o := translate_addrs46_siit st u false (k_outer k) inner_dst hairpin in
  match o with
  | Untranslatable s => Ok (Untranslatable s)
  | Drop s => Ok (Drop s)
  | Continue (src, dst) =>
    match k_inner k with
    | None => Ok (Continue (Addrs src dst None))
    | Some l =>
      let! i := translate_addrs46_siit st u true l 0 hairpin in
      match i with
      | Untranslatable s => Ok (Untranslatable s)
      | Drop s => Ok (Drop s)
      | Continue (isrc, idst) => Ok (Continue (Addrs src dst (Some (isrc, idst))))
      end
    end
  end.

(** 4to6.c:249-287 predict_route46 *)
Definition predict_route46 (u : luck) (k : packet) (r : addrs) : outcome addrs :=
  if negb (u_route u) then Untranslatable JSTAT_FAILED_ROUTES
  else if a_src r =? 0 then
    if negb (l_err (k_outer k)) then Drop JSTAT_UNKNOWN else
    match u_host u with
    | Some h => Continue (Addrs h (a_dst r) (a_inner r))
    | None => Drop JSTAT46_6791_ENOENT
    end
  else Continue r.

(** What leaves the translator. *)
Inductive sent := Sent4 (r : addrs) | Sent6 (r : addrs).

(** A 4->6 translation from its start to its routing: core.c:40-56 with
    4to6.c:696-704; [hairpin] as handling_hairpinning_siit.c:13-36 sets it *)
Definition xlat46 (st : siit) (u : luck) (k : packet) (hairpin : bool) : res (outcome sent) :=
  let! o := compute_addrs46 st u k hairpin in
  match o with
  | Untranslatable s => Ok (Untranslatable s)
  | Drop s => Ok (Drop s)
  | Continue r =>
    match predict_route46 u k r with
    | Untranslatable s => Ok (Untranslatable s)
    | Drop s => Ok (Drop s)
    | Continue r' => Ok (Continue (Sent6 r'))
    end
  end.

(** The IPv4 packet that a 6->4 translation of [k] produced; an
    inner error stays an error.  The hop limit is not read again. *)
Definition become4 (k : packet) (r : addrs) : packet :=
  Packet (Leg (a_src r) (a_dst r) (l_err (k_outer k)) (l_hop (k_outer k)))
    (match k_inner k, a_inner r with
     | Some l, Some (s, d) => Some (Leg s d (l_err l) (l_hop l))
     | _, _ => None
     end).

(** A 6->4 translation: core.c:28-57 with 6to4.c:336-355 predict_route64, and,
    when the packet hairpins, handling_hairpinning_siit.c:13-36 (whose verdict
    is the verdict of the whole) *)
Definition xlat64 (st : siit) (u u' : luck) (k : packet) : res (outcome sent) :=
  let! o := compute_addrs64 st u k in
  match o with
  | Untranslatable s => Ok (Untranslatable s)
  | Drop s => Ok (Drop s)
  | Continue (r, hairpin) =>
    match predict_route64 u r hairpin with
    | Untranslatable s => Ok (Untranslatable s)
    | Drop s => Ok (Drop s)
    | Continue r' =>
      if hairpin then xlat46 st u' (become4 k r') true else Ok (Continue (Sent4 r'))
    end
  end.

(** nl/address.c:34-85 handle_address_query64 and 87-138
    handle_address_query46: [Some] is the answer, [None] is -EINVAL *)
Definition address_query64 (st : siit) (a6 : Z) : res (option (Z * method)) :=
  let! r := addrxlat_siit64 st a6 true in
  match r with XContinue a m => Ok (Some (a, m)) | _ => Ok None end.
Definition address_query46 (st : siit) (a4 : Z) : res (option (Z * method)) :=
  let! r := addrxlat_siit46 st a4 true true in
  match r with XContinue a m => Ok (Some (a, m)) | _ => Ok None end.
