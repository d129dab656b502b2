(** Session synchronisation between machines, on octets: the message in which
    the module hands sessions to the daemon, what the daemon sends to the network
    and receives from it, and what the module of the other machine makes of it.
    Sources: src/mod/common/joold.c:219-272 and 417-447,
    src/usr/argp/joold/modsocket.c, src/usr/argp/joold/netsocket.c,
    src/usr/nl/joold.c, src/mod/common/nl/joold.c.

    The headers of Netlink and of Generic Netlink are not in the octets.
    Simplified: statistics, acknowledgements and logging are left out; all sessions
    of a message are written in the same jiffy; what request_handle_start() checks
    is in [Req_Model] (here, the instance has been found); whether joold_sync()
    succeeded, of which nobody is told but by a message that the daemon logs, is
    left out. *)
Require Import Verif.Base Verif.Addr_Model Verif.Rtrie_Model Verif.Pool4_Model Verif.Fsm_Model Verif.Bib_Model Verif.Nat64_Model Verif.Joold_Model Verif.Glob_Model
  Verif.Inst_Model Verif.Nla_Model Verif.Req_Model.

(** ** The machine that sends *)

(** src/mod/common/joold.c:219-272 send_to_userspace: the message, which has room for [cap] octets;
    [None] if there is nothing to send or it does not fit. [d], [now]: see [put_session]. *)
Definition put_sessions (h : host) (cap d now : Z) (l : list (proto * sentry)) : list Z -> put :=
  fold_right (fun x => andthen (nla_put h cap JNLAL_ENTRY (put_session d now (fst x) (snd x)))) done l.
Definition announce (h : host) (cap version : Z) (iname : name) (d now : Z) (l : list (proto * sentry)) : option (list Z) :=
  match l with
  | [] => None
  | _ =>
    let jhdr := JOOLNL_HDR_MAGIC ++ octets 4 version ++ [XT_NAT64; 0; 0; 0] ++ iname ++ repeat 0 (16 - length iname) in
    match nest_k h cap JNLAR_SESSION_ENTRIES (put_sessions h cap d now l) jhdr with
    | Put b => Some b
    | NoRoom _ => None
    end
  end.

(** tolower() of strcasecmp(), in the C locale *)
Definition lower (c : Z) : Z := if (65 <=? c) && (c <=? 90) then c + 32 else c.

(** src/usr/argp/joold/modsocket.c:137-199 updated_entries_cb, with netsocket_enabled(): the octets that
    netsocket_send() (netsocket.c:367-386) is given; [None] if there are none. The attribute is not looked at by
    nla_ok() before: what the message does not have is [Stray]. *)
Definition updated_entries_cb (h : host) (u : client) (iname : name) (b : list Z) : rd (option (list Z)) :=
  if zlen b <? 28 then Got None
  else if negb (validate_joolnlhdr u b) then Got None
  else if negb (if list_eq_dec Z.eq_dec (map lower (cstring (hdr_iname b))) (map lower iname) then true else false) then Got None
  else if bit_and (hdr_flags b) FLAGS_ERROR then Got None
  else
    let root := skipn 28 b in
    if zlen root <? 4 then Stray
    else if negb (Z.land (host_number h (firstn 2 (skipn 2 root))) NLA_TYPE_MASK =? JNLAR_SESSION_ENTRIES) then Got None
    else
      let n := host_number h (firstn 2 root) - 4 in
      if (n <? 0) || (zlen root - 4 <? n) then Stray else Got (Some (firstn (Z.to_nat n) (skipn 4 root))).

(** ** The machine that receives *)

(** src/common/config.h:420 JOOLD_MAX_PAYLOAD; src/usr/argp/joold/netsocket.c:302-325 netsocket_listen: what recv() leaves in the buffer *)
Definition JOOLD_MAX_PAYLOAD : nat := 2048.
Definition netsocket_listen (datagram : list Z) : list Z := firstn JOOLD_MAX_PAYLOAD datagram.

(** src/usr/nl/joold.c:26-52 joolnl_joold_add, as modsocket_send() calls it (src/usr/argp/joold/modsocket.c:25-30) *)
Definition joolnl_joold_add (h : host) (u : client) (iname : name) (data : list Z) : option (list Z) :=
  match joolnl_alloc_msg u (Some iname) 0 with
  | None => None
  | Some hdr =>
    match nla_put h (u_cap u) (Z.lor NLA_F_NESTED JNLAR_SESSION_ENTRIES) data hdr with
    | Put b => Some b
    | NoRoom _ => None
    end
  end.

(** The outcomes of the allocations of each session; those not told work *)
Fixpoint lend {A} (als : list (list bool)) (l : list A) : list (A * list bool) :=
  match l with
  | [] => []
  | x :: l => (x, hd [] als) :: lend (tl als) l
  end.

(** src/mod/common/nl/joold.c:8-35 handle_joold_add, src/mod/common/joold.c:408-447 joold_disabled, joold_sync.
    [None]: refused. nla_for_each_nested() of a null pointer is [UB]. *)
Definition handle_joold_add (h : host) (enabled : bool) (pool6 : prefix6) (c : cfg) (s : db) (now : Z) (als : list (list bool)) (b : list Z)
  : res (option (db * list ev)) :=
  match nla_parse_k h JNLAR_MAX jool_policy (skipn 28 b) with
  | Bad _ => Ok None
  | Stray => UB
  | Got t =>
    if negb enabled then Ok None
    else
      match t JNLAR_SESSION_ENTRIES with
      | None => UB
      | Some root =>
        let! r := joold_sync pool6 c s now (lend als (map a_data (fst (attributes h (a_data root))))) in
        Ok (Some r)
      end
  end.

(** A datagram that reaches the daemon of a machine, up to its sessions *)
Definition receive (h : host) (u : client) (iname : name) (enabled : bool) (pool6 : prefix6) (c : cfg) (s : db) (now : Z) (als : list (list bool)) (datagram : list Z)
  : res (option (db * list ev)) :=
  match joolnl_joold_add h u iname (netsocket_listen datagram) with
  | None => Ok None
  | Some b => handle_joold_add h enabled pool6 c s now als b
  end.
