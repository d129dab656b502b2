(** What the claims about whole packets talk about. *)
Require Import Verif.Base Verif.Addr_Model Verif.Rtrie_Model Verif.Pool4_Model Verif.Fsm_Model Verif.Bib_Model Verif.Bib_Find Verif.Bib_Hist Verif.Bib_Spec Verif.Nat64_Model.

(** A database some histories of operations lead to.  [states_ok]: the states of
    TCP sessions are TCP's (joold does not check the ones it receives: C57). *)
Definition reachable_db (s : db) : Prop := reachable UDP (d_udp s) /\ reachable TCP (d_tcp s) /\ states_ok (d_tcp s) /\ reachable ICMP (d_icmp s).

(** The enumeration pool4 comes up with is one ([pool4_usable]: any pool4 whose sizes are exact). *)
Definition usable (g : xconf) (n : env) : Prop := forall pr d,
  mask_domain_find (g_pool4 g) pr (n_mark n) (n_hash n) (n_eph n) (n_route n) (n_kro n) = Ok (Domain d) -> exists masks, offers d masks.

(** The conversation a packet belongs to: protocol, source and destination. *)
Definition flow (k : pkt) : option (proto * ta * ta) :=
  match k_l4 k with
  | LUdp s d => Some (UDP, (k_src k, s), (k_dst k, d))
  | LTcp s d _ _ _ => Some (TCP, (k_src k, s), (k_dst k, d))
  | LIcmp ty id _ =>
    match k_fam k, ty with
    | V6, 128 | V6, 129 | V4, 0 | V4, 8 => Some (ICMP, (k_src k, id), (k_dst k, id))
    | _, _ => None
    end
  | LOther => None
  end.
Definition is_syn (k : pkt) : bool := match k_l4 k with LTcp _ _ syn _ _ => syn | _ => false end.

(** An ICMP error (RFC 792, RFC 4443), and the conversation of the packet it is about. *)
Definition icmp_error (k : pkt) (i : inner) : Prop :=
  exists ty id, k_l4 k = LIcmp ty id i /\ In ty (match k_fam k with V6 => [1; 2; 3; 4] | V4 => [3; 4; 5; 11; 12] end).
Definition about (f : fam) (i : inner) : option (proto * ta * ta) :=
  match in_l4 i with
  | IUdp s d => Some (UDP, (in_src i, s), (in_dst i, d))
  | ITcp s d => Some (TCP, (in_src i, s), (in_dst i, d))
  | IIcmp ty id =>
    match f, ty with
    | V6, 128 | V6, 129 | V4, 0 | V4, 8 => Some (ICMP, (in_src i, id), (in_dst i, id))
    | _, _ => None
    end
  | IOther => None
  end.

(** The IPv6 address pool6 gives an IPv4 node, which is the one the translator
    uses itself as source (not one with other bits after the IPv4 address). *)
Definition canonical (g : xconf) (a : Z) : Prop := exists a4, is_u32 a4 /\ rfc6052_4to6 (g_pool6 g) a4 = Some a.

(** The session is not one an unanswered IPv4 packet is stored in. *)
Definition open_session (t : tb) (s6 s4 d4 : ta) : Prop :=
  exists j s b, sess t j = Some s /\ bibs t (s_bib s) = Some b /\ b_src6 b = s6 /\ b_src4 b = s4 /\ s_dst4 s = d4 /\ s_stored s = None.

(** Every address of pool6 can be used. *)
Definition pool6_ok (g : xconf) : Prop := wt_prefix6 (g_pool6 g) /\ exists force, pool6_validate (g_pool6 g) force = OK.

(** pool4 answers every question, and with an enumeration when it gives one. *)
Definition sound (g : xconf) (n : env) : Prop :=
  usable g n /\ (forall pr, exists f, mask_domain_find (g_pool4 g) pr (n_mark n) (n_hash n) (n_eph n) (n_route n) (n_kro n) = Ok f) /\
  (forall pr a q, exists b, pool4db_contains (g_pool4 g) (n_ifas n) pr a q = Ok b).
