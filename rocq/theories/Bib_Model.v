(** Model of src/mod/common/db/bib/db.c and pkt_queue.c: one BIB/session table.

    This is a heap model: BIB entries and sessions live at addresses, [free_bib]
    and [free_session] remove them, and using an address that holds nothing is
    the outcome [UB].

    Simplifications.
    - The three tables (TCP, UDP, ICMP) share nothing but statistics, so the
      functions here work on one table and its protocol; an entry's [proto]
      field is that protocol.
    - A red-black tree is the list of its nodes in order, a tree slot is a
      position in that list; [Rbtree_Properties] relates both to the walks of
      rbtree.h over any search tree.
    - Objects not linked yet ([new] in the C code) are local values; they get
      an address when they are linked.
    - The stored packets' tree and list (pkt_queue.c) are one list, oldest first.
    - Allocation outcomes come from a list of booleans ([true]: it works; all
      work once the list ends).  [now] is the value of jiffies (64 bits) during
      the operation.
    - Each operation is atomic (it runs under the table's spinlock). *)
Require Import Verif.Base Verif.Addr_Model Verif.Rtrie_Model Verif.Pool4_Model Verif.Fsm_Model.

(** ** Comparisons *)
(** address.c:268-278 taddr6_compare and 280-290 taddr4_compare: addresses as
    memcmp orders them, then ports *)
Definition ta_cmp (a b : ta) : comparison :=
  match fst a ?= fst b with Eq => snd a ?= snd b | c => c end.
(** address.c:55-65 taddr6_equals, taddr4_equals *)
Definition ta_eqb (a b : ta) : bool := (fst a =? fst b) && (snd a =? snd b).

(** ** State *)
(** db.c:19-44 tabled_bib *)
Record tbib := TB { b_src6 : ta; b_src4 : ta; b_static : bool; b_sess : list Z }.
(** db.c:49-95 tabled_session; [s_stored] names the stored packet *)
Record tsess := TS {
  s_dst6 : ta; s_dst4 : ta; s_state : Z; s_bib : Z; s_time : Z; s_exp : timer; s_stored : option Z }.
(** pkt_queue.h:108-120 pktqueue_session *)
Record pnode := PN { q_dst6 : ta; q_src4 : ta; q_dst4 : ta; q_skb : Z; q_time : Z }.

(** db.c:124-164 bib_table; [n_bibs] and [n_sess] are this table's share of the
    statistics JSTAT_BIB_ENTRIES and JSTAT_SESSIONS, [fresh] the next address *)
Record tb := Tbl {
  bibs : Z -> option tbib; sess : Z -> option tsess;
  tree6 : list Z; tree4 : list Z;
  l_est : list Z; l_trans : list Z; l_syn4 : list Z;
  pkts : Z; queue : list pnode;
  n_bibs : Z; n_sess : Z; fresh : Z }.

(** db.c:362-379 init_table *)
Definition init_table : tb := Tbl (fun _ => None) (fun _ => None) [] [] [] [] [] 0 [] 0 0 0.

Definition upd {A} (h : Z -> option A) (k : Z) (v : option A) : Z -> option A :=
  fun j => if j =? k then v else h j.

Definition getb (t : tb) (i : Z) : res tbib := match bibs t i with Some b => Ok b | None => UB end.
Definition gets (t : tb) (i : Z) : res tsess := match sess t i with Some s => Ok s | None => UB end.

Definition set_bibs (t : tb) h := Tbl h (sess t) (tree6 t) (tree4 t) (l_est t) (l_trans t) (l_syn4 t) (pkts t) (queue t) (n_bibs t) (n_sess t) (fresh t).
Definition set_sess (t : tb) h := Tbl (bibs t) h (tree6 t) (tree4 t) (l_est t) (l_trans t) (l_syn4 t) (pkts t) (queue t) (n_bibs t) (n_sess t) (fresh t).
Definition set_trees (t : tb) t6 t4 := Tbl (bibs t) (sess t) t6 t4 (l_est t) (l_trans t) (l_syn4 t) (pkts t) (queue t) (n_bibs t) (n_sess t) (fresh t).
Definition set_lists (t : tb) a b c := Tbl (bibs t) (sess t) (tree6 t) (tree4 t) a b c (pkts t) (queue t) (n_bibs t) (n_sess t) (fresh t).
Definition set_pkts (t : tb) n := Tbl (bibs t) (sess t) (tree6 t) (tree4 t) (l_est t) (l_trans t) (l_syn4 t) n (queue t) (n_bibs t) (n_sess t) (fresh t).
Definition set_queue (t : tb) q := Tbl (bibs t) (sess t) (tree6 t) (tree4 t) (l_est t) (l_trans t) (l_syn4 t) (pkts t) q (n_bibs t) (n_sess t) (fresh t).
Definition set_stats (t : tb) nb ns := Tbl (bibs t) (sess t) (tree6 t) (tree4 t) (l_est t) (l_trans t) (l_syn4 t) (pkts t) (queue t) nb ns (fresh t).
Definition set_fresh (t : tb) f := Tbl (bibs t) (sess t) (tree6 t) (tree4 t) (l_est t) (l_trans t) (l_syn4 t) (pkts t) (queue t) (n_bibs t) (n_sess t) f.

Definition put_bib (t : tb) (i : Z) (b : tbib) : tb := set_bibs t (upd (bibs t) i (Some b)).
Definition put_sess (t : tb) (i : Z) (s : tsess) : tb := set_sess t (upd (sess t) i (Some s)).
Definition with_sess (b : tbib) (l : list Z) : tbib := TB (b_src6 b) (b_src4 b) (b_static b) l.

(** free_bib and free_session (db.c:182-183) *)
Definition free_bib (t : tb) (i : Z) : res tb :=
  match bibs t i with Some _ => Ok (set_bibs t (upd (bibs t) i None)) | None => UB end.
Definition free_session (t : tb) (i : Z) : res tb :=
  match sess t i with Some _ => Ok (set_sess t (upd (sess t) i None)) | None => UB end.

(** What leaves the table: a stored packet dropped (kfree_skb), a stored packet
    answered with an ICMP error, a probe (db.c:817-834).  Within one operation the C code
    may release them in another order (probes are prepended to a list, a tree is
    freed in postorder). *)
Inductive ev := EvKill (skb : Z) | EvIcmp (skb : Z) | EvProbe (src6 dst6 : ta).

(** ** Lists *)
Definition remove_id (i : Z) (l : list Z) : list Z := filter (fun j => negb (j =? i)) l.
Definition mem_id (i : Z) (l : list Z) : bool := existsb (Z.eqb i) l.
(** rb_erase; erasing a node that is not in the tree corrupts it *)
Definition erase (i : Z) (l : list Z) : res (list Z) := if mem_id i l then Ok (remove_id i l) else UB.
(** treeslot_commit (rbtree.c:15-19) *)
Definition insert_at (n : nat) (i : Z) (l : list Z) : list Z := firstn n l ++ i :: skipn n l.

(** list_del on a session's [list_hook] *)
Definition unlink (t : tb) (i : Z) : tb :=
  set_lists t (remove_id i (l_est t)) (remove_id i (l_trans t)) (remove_id i (l_syn4 t)).

Definition list_of (t : tb) (k : timer) : list Z :=
  match k with T_EST => l_est t | T_TRANS => l_trans t | T_SYN4 => l_syn4 t | T_BAD => [] end.
Definition set_list (t : tb) (k : timer) (l : list Z) : tb :=
  match k with
  | T_EST => set_lists t l (l_trans t) (l_syn4 t)
  | T_TRANS => set_lists t (l_est t) l (l_syn4 t)
  | T_SYN4 => set_lists t (l_est t) (l_trans t) l
  | T_BAD => t
  end.

(** ** Time *)
(** Kernel msecs_to_jiffies for HZ = 1000 / d *)
Definition MAX_JIFFY_OFFSET := 2^62 - 2.
Definition msecs_to_jiffies (d m : Z) : Z := if m <? 2^31 then (m + d - 1) / d else MAX_JIFFY_OFFSET.
(** Kernel time_before *)
Definition s64 (x : Z) : Z := let y := u64 x in if y <? 2^63 then y else y - 2^64.
Definition time_before (a b : Z) : bool := s64 (a - b) <? 0.

(** The configuration the tables use (common/config.h bib_config), in ms *)
Record cfg := Cfg {
  c_tcp_est : Z; c_tcp_trans : Z; c_udp : Z; c_icmp : Z;
  c_drop_by_addr : bool; c_drop_external_tcp : bool; c_max_stored_pkts : Z;
  c_handle_rst : bool; c_hz : Z }.

Definition TCP_INCOMING_SYN := 6.

(** db.c:214-239 get_timeout *)
Definition get_timeout (c : cfg) (p : proto) (k : timer) : Z :=
  msecs_to_jiffies (c_hz c)
    (match p, k with
     | TCP, T_EST => c_tcp_est c
     | TCP, T_TRANS => c_tcp_trans c
     | UDP, T_EST => c_udp c
     | TCP, T_SYN4 => 1000 * TCP_INCOMING_SYN
     | ICMP, T_EST => c_icmp c
     | _, _ => 0
     end).

(** db.c:244-258 tstose *)
Definition tstose (c : cfg) (p : proto) (t : tb) (s : tsess) : res sentry :=
  let! b := getb t (s_bib s) in
  Ok (SE (b_src6 b) (s_dst6 s) (b_src4 b) (s_dst4 s) (s_state s) (s_exp s) (s_time s)
         (get_timeout c p (s_exp s)) (match s_stored s with Some _ => true | None => false end)).

(** What translation gets to see (struct bib_session): the mapping, and the
    whole session if there is one. *)
Inductive entries := NoEntry | BibOnly (src6 src4 : ta) | Session (e : sentry).

(** db.c:277-282 tstobs *)
Definition tstobs (c : cfg) (p : proto) (t : tb) (i : Z) : res entries :=
  let! s := gets t i in let! e := tstose c p t s in Ok (Session e).

(** ** Small steps *)
(** db.c:304-314 kill_stored_pkt *)
Definition set_stored (s : tsess) (o : option Z) : tsess :=
  TS (s_dst6 s) (s_dst4 s) (s_state s) (s_bib s) (s_time s) (s_exp s) o.
Definition kill_stored_pkt (t : tb) (i : Z) : res (tb * list ev) :=
  let! s := gets t i in
  match s_stored s with
  | None => Ok (t, [])
  | Some k => Ok (set_pkts (put_sess t i (set_stored s None)) (pkts t - 1), [EvKill k])
  end.

Definition draw_alloc (al : list bool) : bool * list bool := match al with [] => (true, []) | a :: al' => (a, al') end.

(** db.c:526-569 handle_probe; [probes] says whether the caller gave a list *)
Definition handle_probe (t : tb) (i : Z) (probes : bool) (e : sentry) (al : list bool) : res (tb * list ev * list bool) :=
  let (a, al') := if probes then draw_alloc al else (false, al) in
  if a then
    let! s := gets t i in
    match s_stored s with
    | Some k => Ok (set_pkts (put_sess t i (set_stored s None)) (pkts t - 1), [EvIcmp k], al')
    | None => Ok (t, [EvProbe (e_src6 e) (e_dst6 e)], al')
    end
  else let! r := kill_stored_pkt t i in Ok (fst r, snd r, al').

(** db.c:571-595 rm *)
Definition rm (t : tb) (i : Z) (probes : bool) (e : sentry) (al : list bool) : res (tb * list ev * list bool) :=
  let! s := gets t i in
  let bid := s_bib s in
  let! r := match s_stored s with Some _ => handle_probe t i probes e al | None => Ok (t, [], al) end in
  let '(t, evs, al) := r in
  let! b := getb t bid in
  let! l := erase i (b_sess b) in
  let b := with_sess b l in
  let t := unlink (put_bib t bid b) i in
  let! t := free_session t i in
  let t := set_stats t (n_bibs t) (n_sess t - 1) in
  if negb (b_static b) && match l with [] => true | _ => false end then
    let! a6 := erase bid (tree6 t) in
    let! a4 := erase bid (tree4 t) in
    let! t := free_bib (set_trees t a6 a4) bid in
    Ok (set_stats t (n_bibs t - 1) (n_sess t), evs, al)
  else Ok (t, evs, al).

Definition set_timer (s : tsess) (now : Z) (k : timer) : tsess :=
  TS (s_dst6 s) (s_dst4 s) (s_state s) (s_bib s) now k (s_stored s).

(** db.c:597-604 handle_fate_timer *)
Definition handle_fate_timer (t : tb) (i : Z) (k : timer) (now : Z) : res tb :=
  let! s := gets t i in
  let t := unlink (put_sess t i (set_timer s now k)) i in
  Ok (set_list t k (list_of t k ++ [i])).

(** db.c:632-637: the position found walking backwards from the end while the
    stored session is not older *)
Fixpoint before_newer (t : tb) (time : Z) (l : list Z) (n : nat) : res nat :=
  match n with
  | O => Ok O
  | S n' =>
    match nth_error l n' with
    | None => UB
    | Some j => let! o := gets t j in if s_time o <? time then Ok n else before_newer t time l n'
    end
  end.

(** db.c:606-644 queue_unsorted_session.  Taking the session off its list
    (remove_first) happens after the position is found; when both are the same
    list the position counts the session itself, which is accounted for by
    inserting first and removing the old link. *)
Definition queue_unsorted_session (t : tb) (i : Z) (s : tsess) (k : timer) (remove_first : bool) : res (option tb) :=
  match k with
  | T_BAD => Ok None
  | _ =>
    let! n := before_newer t (s_time s) (list_of t k) (length (list_of t k)) in
    let s' := TS (s_dst6 s) (s_dst4 s) (s_state s) (s_bib s) (s_time s) k (s_stored s) in
    let before := firstn n (list_of t k) in
    let after := skipn n (list_of t k) in
    let t1 := if remove_first then unlink t i else t in
    let before := if remove_first then remove_id i before else before in
    let after := if remove_first then remove_id i after else after in
    Ok (Some (put_sess (set_list t1 k (before ++ i :: after)) i s'))
  end.

Definition set_cb (s : tsess) (e : sentry) : tsess :=
  TS (s_dst6 s) (s_dst4 s) (e_state e) (s_bib s) (e_time e) (s_exp s) (s_stored s).

(** db.c:653-713 decide_fate; [cb] is the callback, [probes] whether the caller
    gave a list of probes *)
Definition decide_fate (c : cfg) (p : proto) (t : tb) (cb : sentry -> sentry * fate) (i : Z) (probes : bool) (now : Z) (al : list bool)
  : res (bool * tb * list ev * list bool) :=
  let! s := gets t i in
  let! tmp := tstose c p t s in
  let (tmp, f) := cb tmp in
  let s := set_cb s tmp in
  let t := put_sess t i s in
  let! r := (if e_stored tmp then Ok (t, []) else kill_stored_pkt t i) in
  let (t, evs) := r in
  match f with
  | FATE_TIMER_EST => let! t := handle_fate_timer t i T_EST now in Ok (true, t, evs, al)
  | FATE_PROBE =>
    let! r := handle_probe t i probes tmp al in
    let '(t, evs', al) := r in
    let! t := handle_fate_timer t i T_TRANS now in Ok (true, t, evs ++ evs', al)
  | FATE_TIMER_TRANS => let! t := handle_fate_timer t i T_TRANS now in Ok (true, t, evs, al)
  | FATE_RM =>
    let! r := rm t i probes tmp al in
    let '(t, evs', al) := r in Ok (true, t, evs ++ evs', al)
  | FATE_PRESERVE => Ok (true, t, evs, al)
  | FATE_DROP => Ok (false, t, evs, al)
  | FATE_TIMER_SLOW =>
    let! s := gets t i in
    let! o := queue_unsorted_session t i s (e_timer tmp) true in
    Ok (true, match o with Some t' => t' | None => t end, evs, al)
  end.

(** ** Searches *)
(** rbtree.h:144-168 rbtree_find_slot over tree6 (db.c:903-911
    find_bibtree6_slot): the colliding entry or the position of the slot *)
Fixpoint search6 (t : tb) (k : ta) (l : list Z) (n : nat) : res (option Z * nat) :=
  match l with
  | [] => Ok (None, n)
  | i :: l' =>
    let! b := getb t i in
    match ta_cmp (b_src6 b) k with
    | Lt => search6 t k l' (S n)
    | Eq => Ok (Some i, n)
    | Gt => Ok (None, n)
    end
  end.
Definition find_bibtree6_slot (t : tb) (k : ta) : res (option Z * nat) := search6 t k (tree6 t) 0.

(** db.c:913-921 find_bibtree4_slot *)
Fixpoint search4 (t : tb) (k : ta) (l : list Z) (n : nat) : res (option Z * nat) :=
  match l with
  | [] => Ok (None, n)
  | i :: l' =>
    let! b := getb t i in
    match ta_cmp (b_src4 b) k with
    | Lt => search4 t k l' (S n)
    | Eq => Ok (Some i, n)
    | Gt => Ok (None, n)
    end
  end.
Definition find_bibtree4_slot (t : tb) (k : ta) : res (option Z * nat) := search4 t k (tree4 t) 0.

(** db.c:943-977 find_session_slot: the colliding session or the slot, and
    whether some session has the same remote address.  The C code only looks at
    the sessions on the way down to the slot. *)
Fixpoint search_sess (t : tb) (k : ta) (l : list Z) (n : nat) : res (option Z * nat) :=
  match l with
  | [] => Ok (None, n)
  | i :: l' =>
    let! s := gets t i in
    match ta_cmp (s_dst4 s) k with
    | Lt => search_sess t k l' (S n)
    | Eq => Ok (Some i, n)
    | Gt => Ok (None, n)
    end
  end.
Fixpoint same_remote (t : tb) (addr : Z) (l : list Z) : res bool :=
  match l with
  | [] => Ok false
  | i :: l' => let! s := gets t i in let! r := same_remote t addr l' in Ok ((fst (s_dst4 s) =? addr) || r)
  end.
Definition find_session_slot (t : tb) (bid : Z) (k : ta) : res (option Z * nat * bool) :=
  let! b := getb t bid in
  let! r := search_sess t k (b_sess b) 0 in
  let! a := same_remote t (fst k) (b_sess b) in
  Ok (fst r, snd r, a).

(** ** Linking *)
(** db.c:842-847 commit_bib_add *)
Definition commit_bib (t : tb) (i : Z) (b : tbib) (n6 n4 : nat) : tb :=
  let t := set_trees (put_bib t i b) (insert_at n6 i (tree6 t)) (insert_at n4 i (tree4 t)) in
  set_stats t (n_bibs t + 1) (n_sess t).
(** db.c:849-853 commit_session_add: into the session tree of [bid] *)
Definition commit_session (t : tb) (i : Z) (s : tsess) (bid : Z) (n : nat) : res tb :=
  let! b := getb t bid in
  let t := put_sess (put_bib t bid (with_sess b (insert_at n i (b_sess b)))) i s in
  Ok (set_stats t (n_bibs t) (n_sess t + 1)).
(** db.c:855-861 attach_timer: the list part *)
Definition attach_timer (t : tb) (i : Z) (k : timer) : tb := set_list t k (list_of t k ++ [i]).

(** db.c:1157-1170 detach_sessions *)
Fixpoint detach_sessions (t : tb) (l : list Z) : res tb :=
  match l with
  | [] => Ok t
  | i :: l' =>
    let! s := gets t i in
    let t := unlink t i in
    let t := match s_stored s with Some _ => set_pkts t (pkts t - 1) | None => t end in
    detach_sessions (set_stats t (n_bibs t) (n_sess t - 1)) l'
  end.
(** db.c:1172-1180 detach_bib *)
Definition detach_bib (t : tb) (bid : Z) : res tb :=
  let! a6 := erase bid (tree6 t) in
  let! a4 := erase bid (tree4 t) in
  let t := set_trees t a6 a4 in
  let t := set_stats t (n_bibs t - 1) (n_sess t) in
  let! b := getb t bid in
  detach_sessions t (b_sess b).

(** db.c:426-440 release_bib_entry *)
Fixpoint release_sessions (t : tb) (l : list Z) : res (tb * list ev) :=
  match l with
  | [] => Ok (t, [])
  | i :: l' =>
    let! s := gets t i in
    let! t := free_session t i in
    let! r := release_sessions t l' in
    Ok (fst r, match s_stored s with Some k => EvIcmp k :: snd r | None => snd r end)
  end.
Definition release_bib_entry (t : tb) (bid : Z) : res (tb * list ev) :=
  let! b := getb t bid in
  let! r := release_sessions t (b_sess b) in
  let! t := free_bib (fst r) bid in
  Ok (t, snd r).

(** db.c:1193-1202 commit_delete_list *)
Fixpoint commit_delete_list (t : tb) (l : list Z) : res (tb * list ev) :=
  match l with
  | [] => Ok (t, [])
  | i :: l' =>
    let! r := release_bib_entry t i in
    let! r' := commit_delete_list (fst r) l' in
    Ok (fst r', snd r ++ snd r')
  end.

(** db.c:1219-1249 try_next: [n] is the predecessor's position *)
Definition try_next (t : tb) (n : nat) (k : ta) : res (option Z * nat) :=
  match nth_error (tree4 t) (S n) with
  | None => Ok (None, S n)
  | Some j => let! b := getb t j in Ok (if ta_eqb (b_src4 b) k then Some j else None, S n)
  end.

(** db.c:1263-1297 find_available_mask: the mask and its slot in tree4, or
    -ENOENT.  [prev]: position of the last collision (NULL at first). *)
Fixpoint mask_loop (t : tb) (d : domain) (prev : option nat) (fuel : nat) : res (option (ta * nat) * domain) :=
  match fuel with
  | O => NoFuel
  | S fuel' =>
    let! r := mask_domain_next d in
    let (d, o) := r in
    match o with
    | inr _ => Ok (None, d)
    | inl (a, port, consecutive) =>
      let! r := if consecutive then match prev with Some n => try_next t n (a, port) | None => UB end else find_bibtree4_slot t (a, port) in
      match r with
      | (Some _, n) => mask_loop t d (Some n) fuel'
      | (None, n) => Ok (Some ((a, port), n), d)
      end
    end
  end.
Definition find_available_mask (t : tb) (d : domain) : res (option (ta * nat) * domain) :=
  mask_loop t d None (S (Z.to_nat (d_count d))).

(** ** Packet queue (pkt_queue.c) *)
Definition q_find (q : list pnode) (dst6 : ta) : option pnode := find (fun x => ta_eqb (q_dst6 x) dst6) q.
Definition q_rm (q : list pnode) (dst6 : ta) : list pnode := filter (fun x => negb (ta_eqb (q_dst6 x) dst6)) q.

(** pkt_queue.c:166-181 pktqueue_find *)
Definition pktqueue_find (q : list pnode) (dst6 : ta) (masks : option domain) : option (pnode * list pnode) :=
  match q_find q dst6 with
  | None => None
  | Some n =>
    if match masks with Some d => negb (mask_domain_matches d (fst (q_src4 n)) (snd (q_src4 n))) | None => false end
    then None else Some (n, q_rm q dst6)
  end.

(** pkt_queue.c:79-132 pktqueue_add *)
Definition pktqueue_add (q : list pnode) (n : pnode) (too_many alloc : bool) : rc * list pnode :=
  if negb alloc then (Err ENOMEM, q)
  else match q_find q (q_dst6 n) with
       | Some _ => (Err EEXIST, q)
       | None => if too_many then (Err ENOSPC, q) else (OK, q ++ [n])
       end.

(** pkt_queue.c:134-151 pktqueue_rm *)
Definition pktqueue_rm (q : list pnode) (src4 : ta) : list pnode * list ev :=
  (filter (fun x => negb (ta_eqb (q_src4 x) src4)) q,
   map (fun x => EvKill (q_skb x)) (filter (fun x => ta_eqb (q_src4 x) src4) q)).

(** pkt_queue.c:194-215 pktqueue_prepare_clean (and 217-222, pktqueue_clean) *)
Fixpoint pktqueue_clean (c : cfg) (q : list pnode) (now : Z) : list pnode * list ev :=
  match q with
  | [] => ([], [])
  | n :: q' =>
    if time_before now (u64 (q_time n + msecs_to_jiffies (c_hz c) (1000 * TCP_INCOMING_SYN))) then (q, [])
    else let (r, evs) := pktqueue_clean c q' now in (r, EvIcmp (q_skb n) :: evs)
  end.

(** ** find_bib_session6 *)
(** The [new] couple: everything known about it before linking. *)
Record newc := New { w_src6 : ta; w_src4 : ta; w_dst6 : ta; w_dst4 : ta; w_state : Z; w_time : Z }.
Definition new_src4 (w : newc) (k : ta) := New (w_src6 w) k (w_dst6 w) (w_dst4 w) (w_state w) (w_time w).
Definition new_dst4 (w : newc) (k : ta) := New (w_src6 w) (w_src4 w) (w_dst6 w) k (w_state w) (w_time w).

(** What find_bib_session6 leaves: [old] (possibly a stale address), the slots,
    the completed [new], the entries to delete later. *)
Record found6 := F6 {
  f_t : tb; f_new : newc; f_bib : option Z; f_sess : option Z;
  f_n6 : nat; f_n4 : nat; f_ns : nat; f_bdl : list Z; f_ev : list ev; f_al : list bool }.

(** db.c:979-992 alloc_bib_session, as far as [tuple->bib] is concerned *)
Inductive alloc2 := A_ok | A_nobib | A_nosession.
Definition alloc_bib_session (al : list bool) : alloc2 * list bool :=
  let (a, al) := draw_alloc al in
  if a then let (s, al) := draw_alloc al in (if s then A_ok else A_nosession, al) else (A_nobib, al).

(** db.c:1299-1414 upgrade_pktqueue_session.  Result: the table, [old->bib],
    [old->session] if it worked, events.  On failure [old->bib] is what the C
    code leaves there: NULL, or the address of an object already freed. *)
Inductive upgraded := U_ok (bid sid : Z) | U_no (oldbib : option Z).
Definition upgrade_pktqueue_session (p : proto) (t : tb) (masks : option domain) (w : newc) (now : Z) (al : list bool)
  : res (tb * upgraded * list ev * list bool) :=
  match p with
  | TCP =>
    match pktqueue_find (queue t) (w_dst6 w) masks with
    | None => Ok (t, U_no None, [], al)
    | Some (sos, q) =>
      let t := set_pkts (set_queue t q) (pkts t - 1) in
      match masks with
      | None => Ok (t, U_no None, [EvKill (q_skb sos)], al)
      | Some _ =>
        let (a, al) := alloc_bib_session al in
        let bid := fresh t in
        let sid := fresh t + 1 in
        let t := set_fresh t (fresh t + 2) in
        match a with
        | A_nobib => Ok (t, U_no None, [EvKill (q_skb sos)], al)
        | A_nosession => Ok (t, U_no (Some bid), [EvKill (q_skb sos)], al)
        | A_ok =>
          let! r6 := find_bibtree6_slot t (w_src6 w) in
          match r6 with
          | (Some _, _) => Ok (t, U_no (Some bid), [EvKill (q_skb sos)], al)
          | (None, n6) =>
            let! r4 := find_bibtree4_slot t (q_src4 sos) in
            match r4 with
            | (Some _, _) => Ok (t, U_no (Some bid), [EvKill (q_skb sos)], al)
            | (None, n4) =>
              let t := commit_bib t bid (TB (w_src6 w) (q_src4 sos) false []) n6 n4 in
              let! t := commit_session t sid (TS (q_dst6 sos) (q_dst4 sos) V4_INIT bid now T_SYN4 None) bid 0 in
              Ok (attach_timer t sid T_SYN4, U_ok bid sid, [EvKill (q_skb sos)], al)
            end
          end
        end
      end
    end
  | _ => Ok (t, U_no None, [], al)
  end.

(** db.c:1416-1423 issue216_needed *)
Definition issue216_needed (masks : option domain) (b : tbib) : bool :=
  match masks with
  | None => false
  | Some d => d_dynamic d && negb (mask_domain_matches d (fst (b_src4 b)) (snd (b_src4 b)))
  end.

(** db.c:1516-1557: no entry in the tables; [ob] is what [old->bib] holds *)
Definition find_new (p : proto) (t : tb) (masks : option domain) (w : newc) (ob : option Z) (n6 : nat) (bdl : list Z)
  (evs : list ev) (al : list bool) : res (rc * found6 * option domain) :=
  match masks with
  | Some d =>
    let! r := find_available_mask t d in
    match r with
    | (None, d') => Ok (Err ENOENT, F6 t w ob None n6 0 0 bdl evs al, Some d')
    | (Some (k, n4), d') =>
      let w := new_src4 w k in
      let w := match p with ICMP => new_dst4 w (fst (w_dst4 w), snd k) | _ => w end in
      Ok (OK, F6 t w ob None n6 n4 0 bdl evs al, Some d')
    end
  | None =>
    let! r := find_bibtree4_slot t (w_src4 w) in
    match r with
    | (Some _, _) => Ok (Err EEXIST, F6 t w ob None n6 0 0 bdl evs al, None)
    | (None, n4) => Ok (OK, F6 t w ob None n6 n4 0 bdl evs al, None)
    end
  end.

(** db.c:1436-1558 find_bib_session6 *)
Definition find_bib_session6 (p : proto) (t : tb) (masks : option domain) (w : newc) (now : Z) (al : list bool)
  : res (rc * found6 * option domain) :=
  let! r := find_bibtree6_slot t (w_src6 w) in
  match r with
  | (Some bid, _) =>
    let! b := getb t bid in
    if negb (issue216_needed masks b) then
      let w := match p with ICMP => new_dst4 w (fst (w_dst4 w), snd (b_src4 b)) | _ => w end in
      let! s := find_session_slot t bid (w_dst4 w) in
      let '(os, ns, _) := s in
      Ok (OK, F6 t w (Some bid) os 0 0 ns [] [] al, masks)
    else
      let! t := detach_bib t bid in
      let! r := find_bibtree6_slot t (w_src6 w) in
      match r with
      | (Some ob, _) => Ok (Err EINVAL, F6 t w (Some ob) None 0 0 0 [bid] [] al, masks)
      | (None, n6) => find_new p t masks w None n6 [bid] [] al
      end
  | (None, n6) =>
    let! r := upgrade_pktqueue_session p t masks w now al in
    let '(t, u, evs, al) := r in
    match u with
    | U_ok bid sid => Ok (OK, F6 t w (Some bid) (Some sid) 0 0 0 [] evs al, masks)
    | U_no ob => find_new p t masks w ob n6 [] evs al
    end
  end.

(** db.c:1080-1098 commit_add6, and 1130-1155 commit_add, which differ in how
    the session gets on its list: [k = None] at its end with time [now]
    (attach_timer), [Some] by time (queue_unsorted_session, done by the
    caller).  [old->bib] is dereferenced when the session is logged or copied. *)
Definition link_new (t : tb) (f : found6) (k : timer) (time : Z) : res (tb * Z) :=
  let w := f_new f in
  let sid := fresh t in
  match f_bib f with
  | Some bid =>
    let! t := commit_session (set_fresh t (fresh t + 1)) sid (TS (w_dst6 w) (w_dst4 w) (w_state w) bid time k None) bid (f_ns f) in
    Ok (t, sid)
  | None =>
    let bid := fresh t + 1 in
    let t := commit_bib (set_fresh t (fresh t + 2)) bid (TB (w_src6 w) (w_src4 w) false []) (f_n6 f) (f_n4 f) in
    let! t := commit_session t sid (TS (w_dst6 w) (w_dst4 w) (w_state w) bid time k None) bid (f_ns f) in
    Ok (t, sid)
  end.
Definition commit_add6 (c : cfg) (p : proto) (t : tb) (f : found6) (k : timer) (now : Z) : res (tb * entries) :=
  let! r := link_new t f k now in
  let (t, sid) := r in
  let t := attach_timer t sid k in
  let! e := tstobs c p t sid in
  Ok (t, e).

(** ** Operations *)
(** db.c:1571-1630 bib_add6 *)
Definition bib_add6 (c : cfg) (p : proto) (t : tb) (masks : domain) (src6 dst6 dst4 : ta) (now : Z) (al : list bool)
  : res (rc * entries * tb * list ev) :=
  let (a, al) := alloc_bib_session al in
  match a with
  | A_ok =>
    let! r := find_bib_session6 p t (Some masks) (New src6 (0, 0) dst6 dst4 ESTABLISHED 0) now al in
    let '(e, f, _) := r in
    let! x :=
      match e with
      | Err x => Ok (Err x, NoEntry, f_t f)
      | OK =>
        match f_sess f with
        | Some sid =>
          let! t := handle_fate_timer (f_t f) sid T_EST now in
          let! en := tstobs c p t sid in
          Ok (OK, en, t)
        | None => let! r := commit_add6 c p (f_t f) f T_EST now in Ok (OK, snd r, fst r)
        end
      end in
    let '(e, en, t) := x in
    let! d := commit_delete_list t (f_bdl f) in
    Ok (e, en, fst d, f_ev f ++ snd d)
  | _ => Ok (Err ENOMEM, NoEntry, t, [])
  end.

(** db.c:1632-1643 find_bib_session4 *)
Definition find_bib_session4 (t : tb) (src4 dst4 : ta) : res (option Z * option Z * nat * bool) :=
  let! r := find_bibtree4_slot t src4 in
  match fst r with
  | None => Ok (None, None, O, false)
  | Some bid => let! s := find_session_slot t bid dst4 in let '(os, n, a) := s in Ok (Some bid, os, n, a)
  end.

(** db.c:1107-1121 commit_add4 *)
Definition commit_add4 (c : cfg) (p : proto) (t : tb) (bid : Z) (n : nat) (dst6 dst4 : ta) (state : Z) (stored : option Z)
  (k : timer) (now : Z) : res (tb * entries) :=
  let sid := fresh t in
  let! t := commit_session (set_fresh t (fresh t + 1)) sid (TS dst6 dst4 state bid now k stored) bid n in
  let t := attach_timer t sid k in
  let! e := tstobs c p t sid in
  Ok (t, e).

(** db.c:1650-1699 bib_add4; [src4] is the packet's destination, [dst4] its
    source *)
Definition bib_add4 (c : cfg) (p : proto) (t : tb) (src4 dst4 dst6 : ta) (now : Z) (al : list bool)
  : res (rc * entries * tb) :=
  let (a, _) := draw_alloc al in
  if negb a then Ok (Err ENOMEM, NoEntry, t)
  else
    let! r := find_bib_session4 t src4 dst4 in
    let '(ob, os, n, allow) := r in
    match os, ob with
    | Some sid, _ =>
      let! t := handle_fate_timer t sid T_EST now in
      let! en := tstobs c p t sid in
      Ok (OK, en, t)
    | None, None => Ok (Err ESRCH, NoEntry, t)
    | None, Some bid =>
      if c_drop_by_addr c && negb allow then Ok (Err EPERM, NoEntry, t)
      else let! r := commit_add4 c p t bid n dst6 dst4 ESTABLISHED None T_EST now in Ok (OK, snd r, fst r)
    end.

Inductive verdict := VContinue | VDrop | VStolen | VDropIcmp.

(** db.c:1705-1774 bib_add_tcp6 *)
Definition bib_add_tcp6 (c : cfg) (t : tb) (masks : domain) (src6 dst6 dst4 : ta) (g : segment) (now : Z) (al : list bool)
  : res (verdict * entries * tb * list ev) :=
  let (a, al) := alloc_bib_session al in
  match a with
  | A_ok =>
    let! r := find_bib_session6 TCP t (Some masks) (New src6 (0, 0) dst6 dst4 V6_INIT 0) now al in
    let '(e, f, _) := r in
    let t := f_t f in
    let! x :=
      match e with
      | Err _ => Ok (VDrop, NoEntry, t, [])
      | OK =>
        match f_sess f with
        | Some sid =>
          let! r := decide_fate c TCP t (tcp_state_machine (c_handle_rst c) g) sid false now (f_al f) in
          let '(ok, t, evs, _) := r in
          if ok then let! en := tstobs c TCP t sid in Ok (VContinue, en, t, evs)
          else Ok (VDrop, NoEntry, t, evs)
        | None =>
          if sg_syn g then let! r := commit_add6 c TCP t f T_TRANS now in Ok (VContinue, snd r, fst r, [])
          else match f_bib f with
               | Some bid => let! b := getb t bid in Ok (VContinue, BibOnly (b_src6 b) (b_src4 b), t, [])
               | None => Ok (VDrop, NoEntry, t, [])
               end
        end
      end in
    let '(v, en, t, evs) := x in
    let! d := commit_delete_list t (f_bdl f) in
    Ok (v, en, fst d, f_ev f ++ evs ++ snd d)
  | _ => Ok (VDrop, NoEntry, t, [])
  end.

(** db.c:1780-1898 bib_add_tcp4; [skb] names the packet *)
Definition bib_add_tcp4 (c : cfg) (t : tb) (src4 dst4 dst6 : ta) (g : segment) (skb : Z) (now : Z) (al : list bool)
  : res (verdict * entries * tb * list ev) :=
  let (a, al) := draw_alloc al in
  if negb a then Ok (VDrop, NoEntry, t, [])
  else
    let! r := find_bib_session4 t src4 dst4 in
    let '(ob, os, n, _) := r in
    match os with
    | Some sid =>
      let! r := decide_fate c TCP t (tcp_state_machine (c_handle_rst c) g) sid false now al in
      let '(ok, t, evs, _) := r in
      if ok then let! en := tstobs c TCP t sid in Ok (VContinue, en, t, evs)
      else Ok (VDrop, NoEntry, t, evs)
    | None =>
      if negb (sg_syn g) then
        match ob with
        | Some bid => let! b := getb t bid in Ok (VContinue, BibOnly (b_src6 b) (b_src4 b), t, [])
        | None => Ok (VDrop, NoEntry, t, [])
        end
      else if c_drop_external_tcp c then Ok (VDrop, NoEntry, t, [])
      else
        let too_many := c_max_stored_pkts c <=? u32 (pkts t) in
        match ob with
        | None =>
          let (a, _) := draw_alloc al in
          match pktqueue_add (queue t) (PN dst6 src4 dst4 skb now) too_many a with
          | (OK, q) => Ok (VStolen, NoEntry, set_pkts (set_queue t q) (pkts t + 1), [])
          | (Err ENOSPC, _) => Ok (VDropIcmp, NoEntry, t, [])
          | (Err _, _) => Ok (VDrop, NoEntry, t, [])
          end
        | Some bid =>
          if c_drop_by_addr c then
            if too_many then Ok (VDropIcmp, NoEntry, t, [])
            else
              let! r := commit_add4 c TCP (set_pkts t (pkts t + 1)) bid n dst6 dst4 V4_INIT (Some skb) T_SYN4 now in
              Ok (VStolen, snd r, fst r, [])
          else
            let! r := commit_add4 c TCP t bid n dst6 dst4 V4_INIT None T_TRANS now in
            Ok (VContinue, snd r, fst r, [])
        end
    end.

(** db.c:2204-2222 bib_find6 and 2224-2242 bib_find4 *)
Definition bib_find6 (t : tb) (k : ta) : res (option (ta * ta * bool)) :=
  let! r := find_bibtree6_slot t k in
  match fst r with None => Ok None | Some i => let! b := getb t i in Ok (Some (b_src6 b, b_src4 b, b_static b)) end.
Definition bib_find4 (t : tb) (k : ta) : res (option (ta * ta * bool)) :=
  let! r := find_bibtree4_slot t k in
  match fst r with None => Ok None | Some i => let! b := getb t i in Ok (Some (b_src6 b, b_src4 b, b_static b)) end.

(** entry.c:4-12 session_equals within one protocol *)
Definition session_equals (a b : sentry) : bool :=
  ta_eqb (e_src6 a) (e_src6 b) && ta_eqb (e_dst6 a) (e_dst6 b) && ta_eqb (e_src4 a) (e_src4 b) && ta_eqb (e_dst4 a) (e_dst4 b).

(** joold.c:360-378 collision_cb *)
Definition collision_cb (new : sentry) (old : sentry) : sentry * fate :=
  if session_equals old new
  then (SE (e_src6 old) (e_dst6 old) (e_src4 old) (e_dst4 old) (e_state new) (e_timer new) (e_time new) (e_timeout old) (e_stored old),
        FATE_TIMER_SLOW)
  else (old, FATE_PRESERVE).

(** db.c:1927-1971 bib_add_session, as joold calls it (joold.c:380-406) *)
Definition bib_add_session (c : cfg) (p : proto) (t : tb) (e : sentry) (now : Z) (al : list bool)
  : res (rc * tb * list ev) :=
  let (a, al) := alloc_bib_session al in
  match a with
  | A_ok =>
    let! r := find_bib_session6 p t None (New (e_src6 e) (e_src4 e) (e_dst6 e) (e_dst4 e) (e_state e) (e_time e)) now al in
    let '(x, f, _) := r in
    let t := f_t f in
    match x with
    | Err x => Ok (Err x, t, f_ev f)
    | OK =>
      match f_sess f with
      | Some sid =>
        let! r := decide_fate c p t (collision_cb e) sid false now (f_al f) in
        let '(_, t, evs, _) := r in Ok (OK, t, f_ev f ++ evs)
      | None =>
        match e_timer e with
        | T_BAD => Ok (Err EINVAL, t, f_ev f)
        | k =>
          let! n := before_newer t (e_time e) (list_of t k) (length (list_of t k)) in
          let! r := link_new t f k (e_time e) in
          let (t, sid) := r in
          Ok (OK, set_list t k (insert_at n sid (list_of t k)), f_ev f)
        end
      end
    end
  | _ => Ok (Err ENOMEM, t, [])
  end.

(** db.c:1973-1996 __clean; [ids] is the list as it was when the loop began
    (list_for_each_entry_safe; decide_fate only moves or frees the session it
    is given) *)
Fixpoint clean_loop (c : cfg) (p : proto) (t : tb) (cb : sentry -> sentry * fate) (timeout : Z) (ids : list Z) (now : Z) (al : list bool)
  : res (tb * list ev * list bool) :=
  match ids with
  | [] => Ok (t, [], al)
  | i :: ids' =>
    let! s := gets t i in
    if time_before now (u64 (s_time s + timeout)) then Ok (t, [], al)
    else
      let! r := decide_fate c p t cb i true now al in
      let '(_, t, evs, al) := r in
      let! r := clean_loop c p t cb timeout ids' now al in
      let '(t, evs', al) := r in
      Ok (t, evs ++ evs', al)
  end.
(** db.c:347-350 just_die *)
Definition just_die (e : sentry) : sentry * fate := (e, FATE_RM).
(** db.c:370-376 and 397-399: the callback of each timer *)
Definition expire_cb (p : proto) (k : timer) (now : Z) : sentry -> sentry * fate :=
  match p, k with TCP, T_EST => tcp_est_expire_cb now | _, _ => just_die end.
Definition clean (c : cfg) (p : proto) (t : tb) (k : timer) (now : Z) (al : list bool) : res (tb * list ev * list bool) :=
  clean_loop c p t (expire_cb p k now) (get_timeout c p k) (list_of t k) now al.

(** db.c:1998-2015 clean_table *)
Definition clean_table (c : cfg) (p : proto) (t : tb) (now : Z) (al : list bool) : res (tb * list ev) :=
  let! r := clean c p t T_EST now al in
  let '(t, e1, al) := r in
  let! r := clean c p t T_TRANS now al in
  let '(t, e2, al) := r in
  let! r := clean c p t T_SYN4 now al in
  let '(t, e3, al) := r in
  let (q, e4) := pktqueue_clean c (queue t) now in
  Ok (set_pkts (set_queue t q) (pkts t - Z.of_nat (length e4)), e1 ++ e2 ++ e3 ++ e4).

(** db.c:2253-2313 __bib_add_static *)
Definition bib_add_static (p : proto) (t : tb) (src6 src4 : ta) (al : list bool) : res (rc * tb * list ev) :=
  let (a, _) := draw_alloc al in
  if negb a then Ok (Err ENOMEM, t, [])
  else
    let! r6 := find_bibtree6_slot t src6 in
    match r6 with
    | (Some i, _) =>
      let! b := getb t i in
      if ta_eqb src4 (b_src4 b) then Ok (OK, put_bib t i (TB (b_src6 b) (b_src4 b) true (b_sess b)), [])
      else Ok (Err EEXIST, t, [])
    | (None, n6) =>
      let! r4 := find_bibtree4_slot t src4 in
      match r4 with
      | (Some _, _) => Ok (Err EEXIST, t, [])
      | (None, n4) =>
        let i := fresh t in
        let t := commit_bib (set_fresh t (fresh t + 1)) i (TB src6 src4 true []) n6 n4 in
        match p with
        | TCP => let (q, evs) := pktqueue_rm (queue t) src4 in Ok (OK, set_queue t q, evs)
        | _ => Ok (OK, t, [])
        end
      end
    end.

(** db.c:2337-2364 bib_rm *)
Definition bib_rm (t : tb) (src6 src4 : ta) : res (rc * tb * list ev) :=
  let! r := find_bibtree6_slot t src6 in
  match fst r with
  | None => Ok (Err ESRCH, t, [])
  | Some i =>
    let! b := getb t i in
    if ta_eqb src4 (b_src4 b) then
      let! t := detach_bib t i in
      let! r := release_bib_entry t i in
      Ok (OK, fst r, snd r)
    else Ok (Err ESRCH, t, [])
  end.

(** db.c:2028-2056 find_starting_point: the part of tree4 to walk *)
Definition find_starting_point (t : tb) (offset : option ta) (include : bool) : res (list Z) :=
  match offset with
  | None => Ok (tree4 t)
  | Some k =>
    let! r := find_bibtree4_slot t k in
    Ok (match r with
        | (Some _, n) => if include then skipn n (tree4 t) else skipn (S n) (tree4 t)
        | (None, n) => skipn n (tree4 t)
        end)
  end.

(** types.c:66-69 port_range_contains *)
Definition port_range_contains (lo hi port : Z) : bool := (lo <=? port) && (port <=? hi).

(** db.c:2386-2396: the loop of bib_rm_range; returns the entries to delete,
    last first *)
Fixpoint rm_range_loop (t : tb) (pf : prefix4) (lo hi : Z) (l : list Z) (bdl : list Z) : res (tb * list Z) :=
  match l with
  | [] => Ok (t, bdl)
  | i :: l' =>
    let! b := getb t i in
    if negb (prefix4_contains pf (fst (b_src4 b))) then Ok (t, bdl)
    else if port_range_contains lo hi (snd (b_src4 b)) then
      let! t := detach_bib t i in rm_range_loop t pf lo hi l' (i :: bdl)
    else rm_range_loop t pf lo hi l' bdl
  end.
(** db.c:2366-2401 bib_rm_range *)
Definition bib_rm_range (t : tb) (pf : prefix4) (lo hi : Z) : res (tb * list ev) :=
  let! l := find_starting_point t (Some (p4_addr pf, lo)) true in
  let! r := rm_range_loop t pf lo hi l [] in
  commit_delete_list (fst r) (snd r).

(** db.c:2403-2420 flush_table *)
Fixpoint flush_loop (t : tb) (l bdl : list Z) : res (tb * list Z) :=
  match l with
  | [] => Ok (t, bdl)
  | i :: l' => let! t := detach_bib t i in flush_loop t l' (i :: bdl)
  end.
Definition flush_table (t : tb) : res (tb * list ev) :=
  let! r := flush_loop t (tree4 t) [] in
  commit_delete_list (fst r) (snd r).

(** ** Listing *)
(** db.c:2058-2083 bib_foreach with the callback of nl/bib.c:11-14: the entries
    handed out (as many as fit, [cap]) and whether there were more *)
Fixpoint read_bibs (t : tb) (l : list Z) : res (list (ta * ta * bool)) :=
  match l with
  | [] => Ok []
  | i :: l' => let! b := getb t i in let! r := read_bibs t l' in Ok ((b_src6 b, b_src4 b, b_static b) :: r)
  end.
Definition bib_foreach (t : tb) (offset : option ta) (cap : nat) : res (list (ta * ta * bool) * bool) :=
  let! l := find_starting_point t offset false in
  let! r := read_bibs t l in
  Ok (firstn cap r, (cap <? length r)%nat).

(** db.c:2125-2151 find_session_offset and the loops of bib_foreach_session
    (2187-2194): the sessions to walk, in order *)
Fixpoint read_sess (c : cfg) (p : proto) (t : tb) (l : list Z) : res (list sentry) :=
  match l with
  | [] => Ok []
  | i :: l' => let! s := gets t i in let! e := tstose c p t s in let! r := read_sess c p t l' in Ok (e :: r)
  end.
Fixpoint all_sess (t : tb) (l : list Z) : res (list Z) :=
  match l with
  | [] => Ok []
  | i :: l' => let! b := getb t i in let! r := all_sess t l' in Ok (b_sess b ++ r)
  end.
Definition find_session_offset (t : tb) (src dst : ta) (include : bool) : res (list Z) :=
  let! r := find_bibtree4_slot t src in
  match r with
  | (None, n) => all_sess t (skipn n (tree4 t))
  | (Some bid, n) =>
    let! b := getb t bid in
    let! s := search_sess t dst (b_sess b) 0 in
    let! rest := all_sess t (skipn (S n) (tree4 t)) in
    Ok (match s with
        | (None, m) => skipn m (b_sess b)
        | (Some _, m) => if include then skipn m (b_sess b) else skipn (S m) (b_sess b)
        end ++ rest)
  end.
(** db.c:2162-2199 bib_foreach_session with the callback of nl/session.c *)
Definition bib_foreach_session (c : cfg) (p : proto) (t : tb) (offset : option (ta * ta)) (include : bool) (cap : nat)
  : res (list sentry * bool) :=
  let! l := match offset with Some (s, d) => find_session_offset t s d include | None => all_sess t (tree4 t) end in
  let! r := read_sess c p t l in
  Ok (firstn cap r, (cap <? length r)%nat).

(** ** Histories of one table *)
Inductive op :=
| OAdd6 (masks : domain) (src6 dst6 dst4 : ta) (now : Z) (al : list bool)
| OAdd4 (src4 dst4 dst6 : ta) (now : Z) (al : list bool)
| OTcp6 (masks : domain) (src6 dst6 dst4 : ta) (g : segment) (now : Z) (al : list bool)
| OTcp4 (src4 dst4 dst6 : ta) (g : segment) (skb : Z) (now : Z) (al : list bool)
| OSync (e : sentry) (now : Z) (al : list bool)
| OClean (now : Z) (al : list bool)
| OStatic (src6 src4 : ta) (al : list bool)
| ORm (src6 src4 : ta)
| ORmRange (pf : prefix4) (lo hi : Z)
| OFlush.

Inductive out :=
| RRc (r : rc) (e : entries)
| RVerdict (v : verdict) (e : entries)
| RNone.

(** One operation.  filtering_and_updating.c:541-583 sends TCP packets to the
    TCP functions and the rest to the simple ones, so on each table only one of
    the pairs is ever used: the others do nothing. *)
Definition step (c : cfg) (p : proto) (t : tb) (o : op) : res (out * tb * list ev) :=
  match o with
  | OAdd6 d s6 d6 d4 now al =>
    match p with
    | TCP => Ok (RNone, t, [])
    | _ => let! r := bib_add6 c p t d s6 d6 d4 now al in let '(x, en, t, evs) := r in Ok (RRc x en, t, evs)
    end
  | OAdd4 s4 d4 d6 now al =>
    match p with
    | TCP => Ok (RNone, t, [])
    | _ => let! r := bib_add4 c p t s4 d4 d6 now al in let '(x, en, t) := r in Ok (RRc x en, t, [])
    end
  | OTcp6 d s6 d6 d4 g now al =>
    match p with
    | TCP => let! r := bib_add_tcp6 c t d s6 d6 d4 g now al in let '(v, en, t, evs) := r in Ok (RVerdict v en, t, evs)
    | _ => Ok (RNone, t, [])
    end
  | OTcp4 s4 d4 d6 g skb now al =>
    match p with
    | TCP => let! r := bib_add_tcp4 c t s4 d4 d6 g skb now al in let '(v, en, t, evs) := r in Ok (RVerdict v en, t, evs)
    | _ => Ok (RNone, t, [])
    end
  | OSync e now al => let! r := bib_add_session c p t e now al in let '(x, t, evs) := r in Ok (RRc x NoEntry, t, evs)
  | OClean now al => let! r := clean_table c p t now al in Ok (RNone, fst r, snd r)
  | OStatic s6 s4 al => let! r := bib_add_static p t s6 s4 al in let '(x, t, evs) := r in Ok (RRc x NoEntry, t, evs)
  | ORm s6 s4 => let! r := bib_rm t s6 s4 in let '(x, t, evs) := r in Ok (RRc x NoEntry, t, evs)
  | ORmRange pf lo hi => let! r := bib_rm_range t pf lo hi in Ok (RNone, fst r, snd r)
  | OFlush => let! r := flush_table t in Ok (RNone, fst r, snd r)
  end.

(** The configuration may change between operations. *)
Fixpoint run (p : proto) (t : tb) (h : list (cfg * op)) : res (tb * list ev) :=
  match h with
  | [] => Ok (t, [])
  | (c, o) :: h' =>
    let! r := step c p t o in
    let '(_, t, evs) := r in
    let! r' := run p t h' in
    Ok (fst r', evs ++ snd r')
  end.
