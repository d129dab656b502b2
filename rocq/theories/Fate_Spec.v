(** What should become of a packet, without looking at how the core does it. *)
Require Import Verif.Base Verif.Fate_Model.

(** ** Memory and references *)

Definition thing_eqb (a b : thing) : bool :=
  match a, b with
  | Incoming, Incoming | Instance, Instance => true
  | Xlation p, Xlation p' | Rebuilt p, Rebuilt p' | RebuiltRoute p, RebuiltRoute p' => Nat.eqb p p'
  | Copy p i, Copy p' i' | Route p i, Route p' i' => Nat.eqb p p' && Nat.eqb i i'
  | _, _ => false
  end.

(** The life of one thing through a list of events: it is taken only while nobody
    has it, and used, released or given away only while we have it.  [None]: a
    double free, a use after free, or something taken twice. *)
Fixpoint life (t : thing) (held : bool) (es : list event) : option bool :=
  match es with
  | [] => Some held
  | Take u :: es => if thing_eqb t u then (if held then None else life t true es) else life t held es
  | Free u :: es | Keep u :: es => if thing_eqb t u then (if held then life t false es else None) else life t held es
  | Output u r :: es =>
    if thing_eqb t u || thing_eqb t r then (if held then life t false es else None) else life t held es
  | Error _ u _ _ _ :: es => if thing_eqb t u && negb held then None else life t held es
  | Count _ :: es => life t held es
  end.

(** ** Counters *)

(** The counters that tell what became of a packet: all of those between
    JSTAT_SUCCESS and JSTAT_DST_OUTPUT, except the numbers of BIB entries and
    sessions; and JSTAT_UNKNOWN. *)
Definition tells_fate (j : Z) : bool := (j =? 3) || ((6 <=? j) && (j <=? 63)) || (j =? 83).

Definition counted (es : list event) : list Z := flat_map (fun e => match e with Count j => [j] | _ => [] end) es.
Definition sent (es : list event) : list (thing * thing) := flat_map (fun e => match e with Output b r => [(b, r)] | _ => [] end) es.
Definition errors (es : list event) : list event := flat_map (fun e => match e with Error _ _ _ _ _ => [e] | _ => [] end) es.
Definition kept (es : list event) : list thing := flat_map (fun e => match e with Keep t => [t] | _ => [] end) es.

(** ** ICMP errors *)

(** The types and codes of the RFCs 792, 1812 and 4443 for each reason; [None]: the
    protocol has no such error. *)
Definition rfc_error (f : ipv) (e : icmp_errcode) : option (Z * Z) :=
  match f, e with
  | P4, AddrUnreachable => Some (3, 1)    (* host unreachable *)
  | P4, ProtoUnreachable => Some (3, 2)   (* protocol unreachable *)
  | P4, PortUnreachable => Some (3, 3)    (* port unreachable *)
  | P4, FragNeeded => Some (3, 4)         (* fragmentation needed and DF set *)
  | P4, SrcRoute => Some (3, 5)           (* source route failed *)
  | P4, Filter => Some (3, 13)            (* communication administratively prohibited *)
  | P4, Ttl => Some (11, 0)               (* time to live exceeded in transit *)
  | P4, HdrField => None
  | P6, Filter => Some (1, 1)             (* administratively prohibited *)
  | P6, AddrUnreachable => Some (1, 3)    (* address unreachable *)
  | P6, PortUnreachable => Some (1, 4)    (* port unreachable *)
  | P6, ProtoUnreachable => Some (1, 4)   (* RFC 6146 section 3.4: type 1, code 4 *)
  | P6, FragNeeded => Some (2, 0)         (* packet too big *)
  | P6, Ttl => Some (3, 0)                (* hop limit exceeded in transit *)
  | P6, HdrField => Some (4, 0)           (* erroneous header field *)
  | P6, SrcRoute => None
  end.

(** ** What the steps are to do *)

Definition refuses (s : step) : bool := match s with Go => false | _ => true end.

(** The counter a step counts tells the fate, and is not the one of success. *)
Definition step_ok (s : step) : Prop :=
  match s with
  | Go => True
  | Untr j | UntrIcmp j _ _ | Refuse j | RefuseIcmp j _ _ => tells_fate j = true /\ j <> 3
  end.

Definition pass_ok (q : pass) : Prop :=
  step_ok (q_in q) /\ match q_filter q with Plain s => step_ok s | Stored j => tells_fate j = true /\ j <> 3 end /\
  step_ok (q_tuple q) /\ step_ok (q_flow q) /\ step_ok (q_saddr q) /\ step_ok (q_size q) /\ step_ok (q_l3 q) /\ step_ok (q_l4xlat q).

Definition world_ok (w : world) : Prop :=
  step_ok (w_init w) /\ pass_ok (w_pass w) /\ match w_second w with Some q => pass_ok q | None => True end.

(** Nothing went wrong that cannot go wrong in a kernel that works: skb_copy_bits of
    a packet within its length fails in fix_ie; a page of a packet is null. *)
Definition healthy_pass (q : pass) : Prop := q_fix q <> FixTorn /\ q_null q = false.
Definition healthy (w : world) : Prop :=
  healthy_pass (w_pass w) /\ match w_second w with Some q => healthy_pass q | None => True end.

(** A hairpin: only IPv6 packets U-turn (handling_hairpinning_nat64.c:19-20; SIIT
    marks packets in 6to4.c only). *)
Definition turns_from_6 (f : ipv) (w : world) : Prop := q_hairpin (w_pass w) = true -> f = P6.

(** ** The decisions about a packet, in the order in which they are taken *)

(** No route: the packet is left to the kernel (JSTAT_FAILED_ROUTES is 61). *)
Definition route_stage (q : pass) : step := if q_found q then Go else Untr 61.

(** No memory: JSTAT64_PSKB_COPY is 41, JSTAT46_PSKB_COPY 52, JSTAT_ENOMEM 6. *)
Definition memory_stage (f : ipv) (q : pass) : step :=
  match q_short q with
  | None => Go
  | Some (k, _) =>
    match f, (if q_error q then O else q_more q) with
    | P6, _ => Refuse 41
    | P4, O => Refuse 52
    | P4, S n => if Nat.leb k (S n) then Refuse 6 else Go
    end
  end.

Definition fix_stage (q : pass) : step :=
  if q_error q then match q_fix q with NoFix | Fixed => Go | FixNoMem => Refuse 6 | FixTorn => Refuse 83 end else Go.

(** Packets that U-turn in SIIT are not routed as IPv4. *)
Definition routing_stages (f : ipv) (turns : bool) (q : pass) : list fstep :=
  map Plain (q_flow q :: (if match f with P6 => turns | P4 => false end then [] else [route_stage q]) ++ [q_saddr q]).

Definition stateful_stages (f : ipv) (q : pass) : list fstep :=
  (match f with P6 => if q_early q then routing_stages P6 false q else [] | P4 => [] end) ++ [q_filter q; Plain (q_tuple q)].

Definition translation_stages (ty : xtype) (f : ipv) (turns : bool) (q : pass) : list fstep :=
  (match ty, f with NAT64, P6 => if q_early q then [] else routing_stages P6 false q | _, _ => routing_stages f turns q end) ++
  map Plain ([q_size q; memory_stage f q; q_l3 q] ++ (if q_l4 q then [fix_stage q; q_l4xlat q] else [])).

(** JSTAT_XLATOR_DISABLED is 7, JSTAT_POOL6_UNSET 8. *)
Definition stages (c : conf) (f : ipv) (w : world) : list fstep :=
  Plain (if c_enabled c then Go else Untr 7) ::
  Plain (match c_type c with NAT64 => if c_pool6 c then Go else Untr 8 | SIIT => Go end) ::
  Plain (w_init w) ::
  (match c_type c with NAT64 => Plain (q_in (w_pass w)) :: stateful_stages f (w_pass w) | SIIT => [] end) ++
  translation_stages (c_type c) f (q_hairpin (w_pass w)) (w_pass w).

(** The second pass of a hairpin: an IPv4 packet that is not received *)
Definition second_stages (ty : xtype) (q : pass) : list fstep :=
  (match ty with NAT64 => stateful_stages P4 q | SIIT => [] end) ++ translation_stages ty P4 true q.

Definition goes (s : fstep) : bool := match s with Plain Go => true | _ => false end.

Fixpoint first_refusal (l : list fstep) : option fstep :=
  match l with [] => None | s :: l => if goes s then first_refusal l else Some s end.

(** What a refusal means for the packet: the counter, what is told to the sender, and
    the answer to the kernel *)
Definition counter (s : fstep) : Z :=
  match s with
  | Plain Go => 0
  | Plain (Untr j) | Plain (UntrIcmp j _ _) | Plain (Refuse j) | Plain (RefuseIcmp j _ _) | Stored j => j
  end.
Definition leaves_alone (h : hook) : answer := match h with Netfilter => Accept | Iptables => TableContinue end.
Definition answer_to (h : hook) (s : fstep) : answer :=
  match s with
  | Plain Go => Dropped
  | Plain (Untr _) | Plain (UntrIcmp _ _ _) => leaves_alone h
  | Plain (Refuse _) | Plain (RefuseIcmp _ _ _) => Dropped
  | Stored _ => Taken
  end.
Definition told (s : fstep) : option (icmp_errcode * Z) :=
  match s with Plain (RefuseIcmp _ e i) => Some (e, i) | _ => None end.

(** ICMP errors can be sent about packets that have a device and, IPv4, a route. *)
Definition can_tell (f : ipv) (w : world) : bool := w_dev w && match f with P4 => w_routed w | P6 => true end.

Definition error_events (f : ipv) (w : world) (s : fstep) : list event :=
  match told s with
  | Some (e, i) =>
    match rfc_error f e with
    | Some (ty, code) => if can_tell f w then [Error f Incoming ty code i] else []
    | None => []
    end
  | None => []
  end.

(** JSTAT_ICMP6ERR_SUCCESS is 64, JSTAT_ICMP6ERR_FAILURE 65, JSTAT_ICMP4ERR_SUCCESS 66,
    JSTAT_ICMP4ERR_FAILURE 67. *)
Definition error_counters (f : ipv) (w : world) (s : fstep) : list Z :=
  match told s with
  | Some _ => [match f, error_events f w s with P6, _ :: _ => 64 | P6, [] => 65 | P4, _ :: _ => 66 | P4, [] => 67 end]
  | None => []
  end.

(** The packets the translation consists of; ICMP errors are one packet. *)
Definition parts (p : nat) (f : ipv) (q : pass) : list (thing * thing) :=
  if q_error q then [if q_l4 q && match q_fix q with Fixed => true | _ => false end then (Rebuilt p, RebuiltRoute p) else (Copy p 0, Route p 0)]
  else (Copy p 0, Route p 0) :: match f with P6 => [] | P4 => map (fun i => (Copy p i, Route p i)) (List.seq 1 (q_more q)) end.

(** Which of them the kernel first fails to send *)
Fixpoint first_lacking (q : pass) (i n : nat) : option nat :=
  match n with O => None | S n => if q_lacking q i then Some i else first_lacking q (S i) n end.
