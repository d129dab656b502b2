(** What the claims about BIB tables talk about. *)
Require Import Verif.Base Verif.Addr_Model Verif.Addr_Spec Verif.Rtrie_Model Verif.Pool4_Model Verif.Pool4_Spec Verif.Fsm_Model Verif.Bib_Model Verif.Bib_Find Verif.Bib_Hist.

(** A table some history of operations leads to.  [wf]: the masks an IPv6 packet
    comes with are an enumeration ([C18_masks_from_pool4] says pool4's are). *)
Definition reachable (p : proto) (t : tb) : Prop := exists h evs, wf h /\ run p init_table h = Ok (t, evs).

(** The mapping between [s6] and [s4] is in the table, as a static entry or not. *)
Definition has (t : tb) (s6 s4 : ta) (static : bool) : Prop :=
  exists i b, bibs t i = Some b /\ b_src6 b = s6 /\ b_src4 b = s4 /\ b_static b = static.
Definition used4 (t : tb) (s4 : ta) : Prop := exists s6 st, has t s6 s4 st.
Definition used6 (t : tb) (s6 : ta) : Prop := exists s4 st, has t s6 s4 st.

(** A session of that mapping, towards [d4] (which is [d6] on the other side). *)
Definition has_session (t : tb) (s6 s4 d6 d4 : ta) : Prop :=
  exists j s b, sess t j = Some s /\ bibs t (s_bib s) = Some b /\ b_src6 b = s6 /\ b_src4 b = s4 /\ s_dst6 s = d6 /\ s_dst4 s = d4.

(** What an operator asks to remove. *)
Definition asked_to_remove (o : op) (s6 s4 : ta) : Prop :=
  match o with
  | ORm a b => s6 = a /\ s4 = b
  | ORmRange pf lo hi => prefix4_contains pf (fst s4) = true /\ lo <= snd s4 <= hi
  | OFlush => True
  | _ => False
  end.
(** A packet from [s6] while pool4 (a dynamic part of it) no longer offers [s4]. *)
Definition outgrown (o : op) (s6 s4 : ta) : Prop :=
  match o with
  | OAdd6 d a _ _ _ _ | OTcp6 d a _ _ _ _ _ => a = s6 /\ d_dynamic d = true /\ mask_domain_matches d (fst s4) (snd s4) = false
  | _ => False
  end.

(** Packets the table holds: of sessions being opened, and of no session. *)
Definition stored_in (t : tb) (skb : Z) : Prop :=
  (exists j s, sess t j = Some s /\ s_stored s = Some skb) \/ (exists n, In n (queue t) /\ q_skb n = skb).

(** Another node has the address. *)
Definition others (t : tb) (s6 m : ta) : Prop := exists s6' st, s6' <> s6 /\ has t s6' m st.
(** The first address of the enumeration no other node has. *)
Definition picked (t : tb) (s6 : ta) (masks : list (Z * Z * bool)) (k : ta) : Prop :=
  exists a b, map fst masks = a ++ k :: b /\ (forall m, In m a -> others t s6 m) /\ ~ others t s6 k.
(** pool4 is empty and the address is not the node's any more. *)
Definition withdrawn (d : domain) (k : ta) : Prop := d_dynamic d = true /\ mask_domain_matches d (fst k) (snd k) = false.
(** The remote end of the session; in ICMP both ends have the same identifier. *)
Definition far_end (p : proto) (d4 k : ta) : ta := match p with ICMP => (fst d4, snd k) | _ => d4 end.

(** A packet from [s6] to [d6] (which is [d4]) gets through: the translation uses
    the mapping the node has already (unless its address was withdrawn), else the
    first address free; there is a session for it; other nodes are unaffected. *)
Definition served (p : proto) (t : tb) (d : domain) (masks : list (Z * Z * bool)) (s6 d6 d4 : ta) (t' : tb) (en : entries) : Prop :=
  exists k st e, en = Session e /\ e_src6 e = s6 /\ e_src4 e = k /\ e_dst4 e = far_end p d4 k /\
  ((has t s6 k st /\ ~ withdrawn d k) \/ (st = false /\ picked t s6 masks k /\ forall k' st', has t s6 k' st' -> withdrawn d k')) /\
  (e_dst6 e = d6 \/ has_session t s6 k (e_dst6 e) (e_dst4 e)) /\
  has t' s6 k st /\ has_session t' s6 k (e_dst6 e) (e_dst4 e) /\
  (forall s6' m st', s6' <> s6 -> (has t' s6' m st' <-> has t s6' m st')).

(** The node that has the mapping of [s4] is in touch with the host [a]. *)
Definition talks (t : tb) (s4 : ta) (a : Z) : Prop := exists s6 d6 q, has_session t s6 s4 d6 (a, q).

(** How long a session waits without news, in milliseconds (RFC 6146 section 4). *)
Definition lifetime (c : cfg) (p : proto) (s : tsess) : Z :=
  match p, s_exp s with
  | UDP, T_EST => c_udp c
  | ICMP, T_EST => c_icmp c
  | TCP, T_EST => c_tcp_est c
  | TCP, T_TRANS => c_tcp_trans c
  | TCP, T_SYN4 => 6000
  | _, _ => 0
  end.
(** Times are in jiffies of [c_hz] milliseconds. *)
Definition expired (c : cfg) (p : proto) (s : tsess) (now : Z) : Prop := s_time s * c_hz c + lifetime c p s <= now * c_hz c.
Definition sane (c : cfg) : Prop := 0 < c_hz c /\ 0 <= c_tcp_est c < 2^31 /\ 0 <= c_tcp_trans c < 2^31 /\ 0 <= c_udp c < 2^31 /\ 0 <= c_icmp c < 2^31.

(** How many packets the table holds. *)
Definition holds (t : tb) (n : Z) : Prop := exists l, NoDup l /\ (forall j, In j l <-> exists s skb, sess t j = Some s /\ s_stored s = Some skb) /\
  n = Z.of_nat (length l) + Z.of_nat (length (queue t)).
(** The packets released, in order. *)
Definition released (evs : list ev) : list Z := flat_map (fun e => match e with EvKill k | EvIcmp k => [k] | EvProbe _ _ => [] end) evs.
(** The packets the table kept, in order ([VStolen] is what says so to the caller). *)
Fixpoint kept_packets (p : proto) (t : tb) (h : list (cfg * op)) : list Z :=
  match h with
  | [] => []
  | (c, o) :: h' =>
    match step c p t o with
    | Ok (x, t', _) => match o, x with OTcp4 _ _ _ _ skb _ _, RVerdict VStolen _ => [skb] | _, _ => [] end ++ kept_packets p t' h'
    | _ => []
    end
  end.
