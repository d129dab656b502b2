(** Session synchronisation: the queue of sessions waiting to be sent to the
    peers, and the bytes sessions travel as.
    Sources: src/mod/common/joold.c, src/mod/common/types.h,
    src/mod/common/nl/attribute.c, src/mod/common/nl/joold.c.
    Simplified: each operation is atomic (the queue's spinlock; what is sent
    after releasing it is the operation's outcome), statistics and logging are
    left out, and [now] is the value of jiffies (64 bits) during the operation. *)
Require Import Verif.Base Verif.Addr_Model Verif.Rtrie_Model Verif.Pool4_Model Verif.Fsm_Model Verif.Bib_Model Verif.Nat64_Model.

(** ** The queue *)

(** common/config.h:422-463 joold_config, the fields that are used; HZ is
    1000 / [j_hz].  They may change between operations. *)
Record jcfg := JCfg { j_enabled : bool; j_deadline : Z; j_capacity : Z; j_max : Z; j_hz : Z }.

Section Queue.
Context {A : Type}.

(** joold.c:16-44 joold_queue and counted_list *)
Record jq := JQ { q_ack : bool; q_ad : bool; q_list : list A; q_count : Z; q_last : Z }.

(** joold.c:277-304 joold_alloc *)
Definition joold_alloc (now : Z) : jq := JQ true false [] 0 now.

(** joold.c:115-150 should_send *)
Definition should_send (c : jcfg) (now : Z) (q : jq) : bool :=
  if q_count q =? 0 then false
  else if time_before (u64 (q_last q + msecs_to_jiffies (j_hz c) (j_deadline c))) now then true
  else if negb (q_ack q) then false
  else if q_ad q then true
  else j_max c <=? q_count q.

(** joold.c:152-160 too_many_sessions *)
Definition too_many_sessions (c : jcfg) (q : jq) : bool :=
  if q_ad q then false else j_capacity c <=? q_count q.

(** joold.c:167-214 send_to_userspace_prepare; the second component is [prepared] *)
Definition prepare (c : jcfg) (now : Z) (q : jq) (o : option A) : jq * list A :=
  let q :=
    match o with
    | None => q
    | Some s => if too_many_sessions c q then q else JQ (q_ack q) (q_ad q) (q_list q ++ [s]) (u32 (q_count q + 1)) (q_last q)
    end in
  if negb (should_send c now q) then (q, [])
  else
    let '(cut, d) := if q_count q <=? j_max c then (length (q_list q), q_count q) else (Z.to_nat (j_max c), j_max c) in
    let n := u32 (q_count q - d) in
    (JQ false (if n =? 0 then false else q_ad q) (skipn cut (q_list q)) n now, firstn cut (q_list q)).

(** What becomes of the sessions taken from the queue. *)
Inductive outcome := Quiet | Sent (l : list A) | Lost (l : list A).

(** joold.c:219-272 send_to_userspace.  [room] is how many sessions fit in the
    message that got allocated ([None] if the allocation failed). *)
Definition send_to_userspace (room : option nat) (l : list A) : outcome :=
  match l with
  | [] => Quiet
  | _ => match room with
         | None => Lost l
         | Some n => if (length l <=? n)%nat then Sent l else Lost l
         end
  end.

(** [mem]: whether the allocations of deferred_session work *)
Inductive jop :=
| JAdd (s : A) (mem : bool)
| JAck
| JClean
| JAdvertise (l : list A) (mem : bool).

(** joold.c:331-353 joold_add, 501-519 joold_ack, 527-543 joold_clean,
    449-499 joold_advertise (with [l] the sessions bib_foreach_session finds);
    types.h:179-189 list_move_all *)
Definition jstep (q : jq) (op : jop) (c : jcfg) (now : Z) (room : option nat) : rc * jq * outcome :=
  let go q o := let '(q, l) := prepare c now q o in (OK, q, send_to_userspace room l) in
  if negb (j_enabled c) then
    (match op with JAdvertise _ _ => Err EINVAL | _ => OK end, q, Quiet)
  else
    match op with
    | JAdd s mem => if mem then go q (Some s) else (OK, q, Quiet)
    | JAck => go (JQ true (q_ad q) (q_list q) (q_count q) (q_last q)) None
    | JClean => go q None
    | JAdvertise l mem =>
      match l with
      | [] => (OK, q, Quiet)
      | _ =>
        if negb mem then (Err ENOMEM, q, Quiet)
        else if q_ad q then (Err EINVAL, q, Quiet)
        else go (JQ (q_ack q) true (q_list q ++ l) (u32 (q_count q + u32 (Z.of_nat (length l)))) (q_last q)) None
      end
    end.

(** An operation along with the configuration and the environment it meets. *)
Record jev := JEv { v_op : jop; v_cfg : jcfg; v_now : Z; v_room : option nat }.

(** A history: each event with the queue it finds, and its outcome. *)
Fixpoint jrun (q : jq) (h : list jev) : list (jq * jev * outcome) * jq :=
  match h with
  | [] => ([], q)
  | e :: h' =>
    let '(_, q', o) := jstep q (v_op e) (v_cfg e) (v_now e) (v_room e) in
    let '(tr, q'') := jrun q' h' in ((q, e, o) :: tr, q'')
  end.

End Queue.

Arguments jq : clear implicits.
Arguments jop : clear implicits.
Arguments jev : clear implicits.
Arguments outcome : clear implicits.

(** ** The bytes *)

(** src/common/types.h:94-117 l4_protocol, bib/entry.h:7-11 session_timer_type *)
Definition proto_code (p : proto) : Z := match p with TCP => 0 | UDP => 1 | ICMP => 2 | OTHER => 3 end.
Definition timer_code (k : timer) : Z := match k with T_EST => 0 | T_TRANS => 1 | T_SYN4 => 2 | T_BAD => 3 end.
Definition proto_of (x : Z) : proto := if x =? 0 then TCP else if x =? 1 then UDP else if x =? 2 then ICMP else OTHER.
Definition timer_of (x : Z) : timer := if x =? 0 then T_EST else if x =? 1 then T_TRANS else if x =? 2 then T_SYN4 else T_BAD.

(** Kernel jiffies_to_msecs for HZ = 1000 / d; it returns an unsigned int *)
Definition jiffies_to_msecs (d j : Z) : Z := u32 (d * j).

(** attribute.c:5-10 SERIALIZED_SESSION_SIZE *)
Definition SERIALIZED_SESSION_SIZE : Z := 36.

(** attribute.c:774-827 jnla_put_session_joold: the attribute's payload.
    Addresses are already in network order; what htonl and htons get is
    converted to 32 and 16 bits. *)
Definition put_session (d : Z) (now : Z) (p : proto) (e : sentry) : list Z :=
  let dying := u64 (e_time e + e_timeout e) in
  let dying := if now <? dying then jiffies_to_msecs d (u64 (dying - now)) else 0 in
  let dying := if 4294967295 <? dying then 4294967295 else dying in
  octets 16 (fst (e_src6 e)) ++ octets 4 (fst (e_src4 e)) ++ octets 4 (fst (e_dst4 e)) ++ octets 4 (u32 dying) ++
  octets 2 (snd (e_src6 e)) ++ octets 2 (snd (e_src4 e)) ++ octets 2 (snd (e_dst4 e)) ++
  octets 2 (u16 (Z.lor (Z.lor (Z.shiftl (proto_code p) 5) (Z.shiftl (e_state e) 2)) (timer_code (e_timer e)))).

(** attribute.c:373-406 get_timeout; [None] is -EINVAL *)
Definition joold_timeout (c : cfg) (p : proto) (k : timer) : option Z :=
  let ms :=
    match p with
    | TCP => match k with
             | T_EST => Some (c_tcp_est c)
             | T_TRANS => Some (c_tcp_trans c)
             | T_SYN4 => Some TCP_INCOMING_SYN
             | T_BAD => None
             end
    | UDP => Some (c_udp c)
    | ICMP => Some (c_icmp c)
    | OTHER => None
    end in
  match ms with Some m => Some (msecs_to_jiffies (c_hz c) m) | None => None end.

(** READ_RAW (attribute.c:408-410): reading beyond the payload is [UB] *)
Definition read_raw (n : nat) (l : list Z) : res (Z * list Z) :=
  if (length l <? n)%nat then UB else Ok (be_of (firstn n l), skipn n l).

(** attribute.c:412-467 jnla_get_session_joold; [None] is -EINVAL.  The
    attribute's nla_len counts its header (4 bytes) as well as the payload. *)
Definition get_session (pool6 : prefix6) (c : cfg) (now : Z) (payload : list Z) : res (option (proto * sentry)) :=
  let nla_len := 4 + Z.of_nat (length payload) in
  if nla_len <? SERIALIZED_SESSION_SIZE then Ok None
  else
    let! r := read_raw 16 payload in let '(src6, l) := r in
    let! r := read_raw 4 l in let '(src4, l) := r in
    let! r := read_raw 4 l in let '(dst4, l) := r in
    let! r := read_raw 4 l in let '(tmp32, l) := r in
    let! r := read_raw 2 l in let '(p6, l) := r in
    let! r := read_raw 2 l in let '(p4, l) := r in
    let! r := read_raw 2 l in let '(pd, l) := r in
    let! r := read_raw 2 l in let '(flags, l) := r in
    let proto := Z.land (Z.shiftr flags 5) 3 in
    let state := Z.land (Z.shiftr flags 2) 7 in
    let k := timer_of (Z.land flags 3) in
    match rfc6052_4to6 pool6 dst4 with
    | None => Ok None
    | Some dst6 =>
      let p := proto_of proto in
      match joold_timeout c p k with
      | None => Ok None
      | Some timeout =>
        let expiration := msecs_to_jiffies (c_hz c) tmp32 in
        Ok (Some (p, SE (src6, p6) (dst6, match p with ICMP => p6 | _ => pd end) (src4, p4) (dst4, pd)
                        state k (u64 (now + expiration - timeout)) timeout false))
      end
    end.

(** joold.c:380-406 add_new_session and 425-447 joold_sync, on the payloads of
    the nested attributes; [al] are the allocations' outcomes. *)
Fixpoint joold_sync (pool6 : prefix6) (c : cfg) (s : db) (now : Z) (l : list (list Z * list bool)) : res (db * list ev) :=
  match l with
  | [] => Ok (s, [])
  | (payload, al) :: l' =>
    let! r := get_session pool6 c now payload in
    match r with
    | None => joold_sync pool6 c s now l'
    | Some (p, e) =>
      let! r := bib_add_session c p (get_table s p) e now al in
      let '(_, t, evs) := r in
      let! r := joold_sync pool6 c (set_table s p t) now l' in
      let '(s, evs') := r in Ok (s, evs ++ evs')
    end
  end.
