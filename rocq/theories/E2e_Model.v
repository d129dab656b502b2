(** The stateful translator on octets: from the packet the kernel hands over to the
    packets it is given to send.
    Sources: src/mod/common/core.c, src/mod/common/steps/determine_incoming_tuple.c,
    src/mod/common/steps/handling_hairpinning_nat64.c,
    src/mod/common/rfc7915/6to4.c, src/mod/common/rfc7915/4to6.c; the steps themselves
    are those of Pkt_Model, Nat64_Model and Xlat_Model, which are put together here.
    Simplified: validate_xlator() and sendpkt_send() are those of Fate_Model; the
    flags of TCP headers, which the state machine looks at, are read with the ports;
    memory for the outgoing packets is there (Fate_Model is about when it is not).
    [u16], [u32] and [u128]: the fields of struct tuple (src/mod/common/types.h:88-101)
    hold no more. *)
Require Import Verif.Base Verif.Addr_Model Verif.Rtrie_Model Verif.Pool4_Model Verif.Fsm_Model Verif.Bib_Model Verif.Nat64_Model
  Verif.Pkt_Model Verif.Csum_Model Verif.Hdr_Model Verif.Xlat_Model.

(** ** Step 1, from octets *)

(** The ports of the TCP or UDP header at [up], read through pointers *)
Definition ports_at (lin : nat) (m : list Z) (up : nat) : res (Z * Z) :=
  let! _ := direct lin up 4 in Ok (be16 m up, be16 m (up + 2)).

(** src/mod/common/steps/determine_incoming_tuple.c:88-137 ipv4_icmp_err, what it
    reads: the packet inside is at [q] *)
Definition inner4_at (lin : nat) (m : list Z) (q : nat) : res inner :=
  let! _ := direct lin q 20 in
  let up := (q + ip_hlen m q)%nat in
  let pr := byte m (q + 9) in
  let! h := (if pr =? 17 then let! p := ports_at lin m up in Ok (IUdp (fst p) (snd p))
             else if pr =? 6 then let! p := ports_at lin m up in Ok (ITcp (fst p) (snd p))
             else if pr =? 1 then
               let! _ := direct lin up 1 in
               if is_icmp4_error (byte m up) then Ok (IIcmp (byte m up) 0)
               else let! _ := direct lin up 6 in Ok (IIcmp (byte m up) (be16 m (up + 4)))
             else Ok IOther) in
  Ok (Inner (be32 m (q + 12)) (be32 m (q + 16)) h).

(** src/mod/common/steps/determine_incoming_tuple.c:198-254 ipv6_icmp_err *)
Definition inner6_at (lin : nat) (m : list Z) (q : nat) : res inner :=
  let! _ := direct lin q 40 in
  let! t := hdr_iterator_last lin m q in
  let pr := fst t in
  let up := snd t in
  let! h := (if pr =? 17 then let! p := ports_at lin m up in Ok (IUdp (fst p) (snd p))
             else if pr =? 6 then let! p := ports_at lin m up in Ok (ITcp (fst p) (snd p))
             else if pr =? 58 then
               let! _ := direct lin up 1 in
               if is_icmp6_error (byte m up) then Ok (IIcmp (byte m up) 0)
               else let! _ := direct lin up 6 in Ok (IIcmp (byte m up) (be16 m (up + 4)))
             else Ok IOther) in
  Ok (Inner (be128 m (q + 8)) (be128 m (q + 24)) h).

(** Bit [k] of an octet *)
Definition bit (x : Z) (k : Z) : bool := (x / 2 ^ k) mod 2 =? 1.
(** No ICMP error, no inner packet. *)
Definition no_inner : inner := Inner 0 0 IOther.

(** src/mod/common/steps/determine_incoming_tuple.c:47-154 ipv4_udp, ipv4_tcp and
    ipv4_icmp; 156-196 and 256-274, the IPv6 ones; 283-332 determine_in_tuple: the
    fields of the packet it looks at. linux/tcp.h: fin, syn and rst are the lowest
    bits of the 14th octet. *)
Definition fields_at (f : fam) (lin : nat) (m : list Z) (mt : meta) : res pkt :=
  let up := l4off mt in
  let! _ := direct lin 0 (match f with V6 => 40 | V4 => 20 end) in
  let! h :=
    match l4p mt with
    | UDP => let! p := ports_at lin m up in Ok (LUdp (fst p) (snd p))
    | TCP =>
        let! p := ports_at lin m up in
        let! _ := direct lin up 14 in
        let x := byte m (up + 13) in
        Ok (LTcp (fst p) (snd p) (bit x 1) (bit x 0) (bit x 2))
    | ICMP =>
        let! _ := direct lin up 1 in
        let ty := byte m up in
        if match f with V6 => is_icmp6_info ty | V4 => is_icmp4_info ty end then
          let! _ := direct lin up 6 in Ok (LIcmp ty (be16 m (up + 4)) no_inner)
        else if match f with V6 => is_icmp6_error ty | V4 => is_icmp4_error ty end then
          let! i := (match f with V6 => inner6_at | V4 => inner4_at end) lin m (up + 8)%nat in Ok (LIcmp ty 0 i)
        else Ok (LIcmp ty 0 no_inner)
    | OTHER => Ok LOther
    end in
  Ok match f with
     | V6 => Pkt V6 (be128 m 8) (be128 m 24) h
     | V4 => Pkt V4 (be32 m 12) (be32 m 16) h
     end.

(** ** Step 4, with the outgoing tuple *)

Definition u128 (x : Z) : Z := x mod 2 ^ 128.

(** src/mod/common/rfc7915/6to4.c:32-49 xlat64_external_addresses, 51-80
    xlat64_internal_addresses and 82-128, of a stateful translator: [w] is everything
    else, which the configuration and the kernel decide *)
Definition env64_of (w : env64) (o : otuple) : env64 :=
  let s := u32 (fst (o_src o)) in let d := u32 (fst (o_dst o)) in
  Env64 (x_le w) (x_tos w) (x_id w) (x_id' w) s d d s (Some (u16 (snd (o_src o)), u16 (snd (o_dst o))))
    (x_mtu w) (x_inmtu w) (x_sum w) (x_flist w) (x_gso w).

(** src/mod/common/rfc7915/4to6.c:20-36 generate_saddr6_nat64; [better] is
    source-icmpv6-errors-better. 44-45: without an address, the packet is dropped
    (JSTAT46_SRC). *)
Definition generate_saddr6_nat64 (g : xconf) (better : bool) (m : list Z) (mt : meta) (o : otuple) : option Z :=
  if better && error4 m mt then rfc6052_4to6 (g_pool6 g) (be32 m 12) else Some (fst (o_src o)).
(** src/mod/common/rfc7915/4to6.c:38-56 xlat46_external_addresses, 58-87
    xlat46_internal_addresses and 89-135, with the source address [a]. [hp],
    [sum]: is_hairpin and ip_summed. *)
Definition env46_of (w : env46) (hp : bool) (sum : summed) (a : Z) (o : otuple) : env46 :=
  let s := u128 (fst (o_src o)) in let d := u128 (fst (o_dst o)) in
  Env46 (y_le w) (y_reset w) hp (y_amend w) (u128 a) d d s (Some (u16 (snd (o_src o)), u16 (snd (o_dst o))))
    (y_mtu w) (y_lim w) (y_inmtu w) (y_plateaus w) sum (y_flist w) (y_gso w) (y_head w) (y_fresh w) (y_fuel w).

(** src/mod/common/rfc7915/6to4.c:499-503: the struct packet of the outgoing packet
    (src/mod/common/packet.h:244-257 pkt_fill) *)
Definition meta_out (mt : meta) : meta := Meta 0 (l4p mt) 20 (20 + (payoff mt - l4off mt)).
(** src/mod/common/rfc7915/6to4.c:1122-1130, 1158-1168 and 873: ip_summed of the outgoing packet *)
Definition sum_out (m : list Z) (mt : meta) (sum : summed) : summed :=
  match l4p mt with
  | TCP | UDP => match sum with CS_PARTIAL => CS_PARTIAL | _ => CS_NONE end
  | ICMP => if error6 m mt then CS_NONE else sum
  | OTHER => sum
  end.

(** The fourth step, IPv4 to IPv6: Xlat_Model, with those addresses and ports;
    [None]: no source address. *)
Definition step4_46 (g : xconf) (better : bool) (w : env46) (hp : bool) (sum : summed) (o : otuple) (lin : nat) (m : list Z) (mt : meta)
    : option (xres (list (list Z))) :=
  match generate_saddr6_nat64 g better m mt o with
  | None => None
  | Some a => Some (xlat46 (env46_of w hp sum a o) lin m mt)
  end.

(** ** The core *)

(** What becomes of the packet: the kernel is given this to send, or it does not
    parse, or one of the steps 1 to 3 refuses it, or there is no source address for
    it, or the translation fails. *)
Inductive result :=
| Packet4 (o : list Z) | Packets6 (os : list (list Z)) | Unparsed (w : why) | Refuses (v : nverdict) | NoSource | Untranslated (x : xres unit).
Definition failed {A} (x : xres A) : xres unit :=
  match x with XOk _ => XOk tt | XDrop j => XDrop j | XIcmp j r i => XIcmp j r i | XUB => XUB end.

(** src/mod/common/core.c:136-167 core_6to4, 28-69 core_common, and
    src/mod/common/steps/handling_hairpinning_nat64.c:43-72 handling_hairpinning_nat64.
    [w2] is for the second translation of a hairpin packet. Of its octets as many
    are paged as of the incoming one's. *)
Definition core6 (g : xconf) (better : bool) (n n2 : env) (nm : bool) (w : env64) (w2 : env46) (s : db) (mem : bool) (m : list Z) (lin : nat)
    : res (result * db * list ev) :=
  match pkt_init_ipv6 mem m lin with
  | BadFuel => NoFuel
  | Bad b => Ok (Unparsed b, s, [])
  | Good (mt, l) =>
    let! k := fields_at V6 l m mt in
    match determine_in_tuple k with
    | (Continue, Some v) =>
      let! r := steps23 g n s v in
      let '(o, s, evs) := r in
      match o with
      | Refused x => Ok (Refuses x, s, evs)
      | Sent _ o =>
        match xlat64 (env64_of w o) l m mt with
        | XUB => UB
        | XOk out =>
          let! h := is_hairpin g n v o in
          if h then
            if nm then
              let! r := steps23 g n2 s (hairpin_view v o) in
              let '(o2, s, evs') := r in
              match o2 with
              | Refused x => Ok (Refuses x, s, evs ++ evs')
              | Sent _ o2 =>
                match step4_46 g better w2 true (sum_out m mt (x_sum w)) o2 (length out - (length m - l)) out (meta_out mt) with
                | None => Ok (NoSource, s, evs ++ evs')
                | Some XUB => UB
                | Some (XOk outs) => Ok (Packets6 outs, s, evs ++ evs')
                | Some x => Ok (Untranslated (failed x), s, evs ++ evs')
                end
              end
            else Ok (Refuses Dropped, s, evs)
          else Ok (Packet4 out, s, evs)
        | x => Ok (Untranslated (failed x), s, evs)
        end
      end
    | (x, _) => Ok (Refuses x, s, [])
    end
  end.

(** src/mod/common/core.c:87-118 core_4to6, and core_common *)
Definition core4 (g : xconf) (better : bool) (n : env) (w : env46) (s : db) (mem : bool) (m : list Z) (lin : nat) : res (result * db * list ev) :=
  match pkt_init_ipv4 mem m lin with
  | BadFuel => NoFuel
  | Bad b => Ok (Unparsed b, s, [])
  | Good (mt, l) =>
    let! k := fields_at V4 l m mt in
    match determine_in_tuple k with
    | (Continue, Some v) =>
      let! r := steps23 g n s v in
      let '(o, s, evs) := r in
      match o with
      | Refused x => Ok (Refuses x, s, evs)
      | Sent _ o =>
        match step4_46 g better w false (y_sum w) o l m mt with
        | None => Ok (NoSource, s, evs)
        | Some XUB => UB
        | Some (XOk outs) => Ok (Packets6 outs, s, evs)
        | Some x => Ok (Untranslated (failed x), s, evs)
        end
      end
    | (x, _) => Ok (Refuses x, s, [])
    end
  end.
