(** Independent vocabulary for the global settings. *)
Require Import Verif.Base Verif.Addr_Model Verif.Addr_Spec Verif.Deny_Spec Verif.Hdr_Spec Verif.Glob_Model.

(** ** Plateaus *)

(** What is stored: the elements in use. *)
Definition stored (p : mtu_plateaus) : list Z := firstn (Z.to_nat (count p)) (values p).
(** [s] is the strictly descending sequence of the distinct nonzero values of [l]. *)
Definition normal (l s : list Z) : Prop := descending s /\ (forall x, In x s <-> In x l /\ x <> 0).

(** ** The documented ranges. Settings by their names in the documentation. *)

Definition network6 (p : prefix6) : Prop := 0 <= p6_len p <= 128 /\ p6_addr p mod 2 ^ (128 - p6_len p) = 0.
Definition network4 (p : prefix4) : Prop := 0 <= p4_len p <= 32 /\ p4_addr p mod 2 ^ (32 - p4_len p) = 0.
Definition boolean (v : Z) : Prop := v = 0 \/ v = 1.

Record common_ranges (g : globals) : Prop := {
  r_mtu : 1280 <= num g JNLAG_LOWEST_IPV6_MTU < 2 ^ 32;
  r_tos : 0 <= num g JNLAG_TOS < 256;
  r_bools : forall i, In i [JNLAG_ENABLED; JNLAG_DEBUG; JNLAG_RESET_TC; JNLAG_RESET_TOS] -> boolean (num g i);
  r_pool6 : set6 (pool6 g) = true -> network6 (pre6 (pool6 g)) /\ rfc6052_len (p6_len (pre6 (pool6 g)));
  r_plateaus : stored (plateaus g) <> [] /\ descending (stored (plateaus g)) /\ (forall x, In x (stored (plateaus g)) -> 0 < x < 65536) /\ (length (stored (plateaus g)) <= 64)%nat;
}.
Record siit_ranges (g : globals) : Prop := {
  r_siit_bools : forall i, In i [JNLAG_COMPUTE_CSUM_ZERO; JNLAG_RANDOMIZE_ERROR_ADDR] -> boolean (num g i);
  r_hairpin : 0 <= num g JNLAG_HAIRPIN_MODE <= 2;
  r_6791v6 : set6 (p6791v6 g) = true -> network6 (pre6 (p6791v6 g));
  r_6791v4 : set4 (p6791v4 g) = true -> network4 (pre4 (p6791v4 g));
}.
Record nat64_ranges (g : globals) : Prop := {
  r_nat64_bools : forall i, In i [JNLAG_DROP_BY_ADDR; JNLAG_DROP_EXTERNAL_TCP; JNLAG_DROP_ICMP6_INFO; JNLAG_SRC_ICMP6_BETTER; JNLAG_HANDLE_RST;
                                  JNLAG_BIB_LOGGING; JNLAG_SESSION_LOGGING; JNLAG_JOOLD_ENABLED; JNLAG_JOOLD_FLUSH_ASAP] -> boolean (num g i);
  r_f_args : 0 <= num g JNLAG_F_ARGS <= 15;
  r_udp : 120000 <= num g JNLAG_TTL_UDP < 2 ^ 32;
  r_tcp_est : 7200000 <= num g JNLAG_TTL_TCP_EST < 2 ^ 32;
  r_tcp_trans : 240000 <= num g JNLAG_TTL_TCP_TRANS < 2 ^ 32;
  r_u32s : forall i, In i [JNLAG_TTL_ICMP; JNLAG_MAX_STORED_PKTS; JNLAG_JOOLD_FLUSH_DEADLINE; JNLAG_JOOLD_CAPACITY; JNLAG_JOOLD_MAX_PAYLOAD;
                           JNLAG_JOOLD_MAX_SESSIONS_PER_PACKET] -> 0 <= num g i < 2 ^ 32;
}.
Definition documented (xt : Z) (g : globals) : Prop :=
  common_ranges g /\ (xt = XT_SIIT -> siit_ranges g) /\ (xt = XT_NAT64 -> nat64_ranges g).

(** The setting is among those of the type of instance. *)
Definition setting_of (xt id : Z) : Prop :=
  1 <= id <= 8 \/ (xt = XT_SIIT /\ 9 <= id <= 13) \/ (xt = XT_NAT64 /\ 14 <= id <= 32).

(** ** Messages: values as wide as their attributes; the structure's memory. *)

Definition wt_val (v : gval) : Prop :=
  match v with
  | VU8 x => is_u8 x
  | VU32 x => is_u32 x
  | VPlateaus l => Forall is_u16 l
  | VPrefix6 len addr => (match len with Some n => is_u8 n | None => True end) /\ (match addr with Some a => is_u128 a | None => True end)
  | VPrefix4 len addr => (match len with Some n => is_u8 n | None => True end) /\ (match addr with Some a => is_u32 a | None => True end)
  end.
Definition wt_msg (msg : list (Z * gval)) : Prop := Forall (fun a => wt_val (snd a)) msg.
Definition wt_plateaus (p : mtu_plateaus) : Prop := length (values p) = 64%nat /\ Forall is_u16 (values p) /\ 0 <= count p <= 64.
Definition wt_globals (g : globals) : Prop :=
  wt_plateaus (plateaus g) /\ wt_prefix6 (pre6 (pool6 g)) /\ wt_prefix6 (pre6 (p6791v6 g)) /\ wt_prefix4 (pre4 (p6791v4 g)).

(** A history of update requests. [outcome]: what the code that installs the
    new configuration answers (xlator_replace(), Inst_Model.v). *)
Definition request := (bool * list (Z * gval) * (globals -> rc))%type.
Definition serve (xt : Z) (g : globals) (r : request) : rc * globals :=
  let '(force, msg, outcome) := r in
  match global_update g xt force msg with
  | (OK, g') => match outcome g' with OK => (OK, g') | Err e => (Err e, g) end
  | (Err e, _) => (Err e, g)
  end.
Fixpoint serve_all (xt : Z) (g : globals) (rs : list request) : globals :=
  match rs with [] => g | r :: rs => serve_all xt (snd (serve xt g r)) rs end.

(** ** What an update may ask, and what it does *)

Definition is_boolean_setting (id : Z) : bool := existsb (Z.eqb id) [1; 4; 5; 6; 9; 11; 14; 15; 16; 17; 19; 24; 25; 27; 28].
(** The documented constraint on one value. (The empty list of plateaus is left
    out here: see C45_refuted.) *)
Definition acceptable (force : bool) (id : Z) (v : gval) : Prop :=
  match v with
  | VU8 x => (id = JNLAG_HAIRPIN_MODE -> x <= 2) /\ (id = JNLAG_F_ARGS -> x <= 15)
  | VU32 x => (id = JNLAG_LOWEST_IPV6_MTU -> 1280 <= x) /\ (id = JNLAG_TTL_UDP -> 120000 <= x) /\ (id = JNLAG_TTL_TCP_EST -> 7200000 <= x) /\
      (id = JNLAG_TTL_TCP_TRANS -> 240000 <= x)
  | VPlateaus l => id = JNLAG_PLATEAUS /\ (length l <= 64)%nat /\ exists x, In x l /\ x <> 0
  | VPrefix6 (Some _) None => id = JNLAG_POOL6 \/ id = JNLAG_POOL6791V6
  | VPrefix6 (Some len) (Some a) =>
      network6 (P6 a len) /\ ((id = JNLAG_POOL6 /\ rfc6052_len len /\ (force = true \/ octet 16 a 8 = 0)) \/ id = JNLAG_POOL6791V6)
  | VPrefix4 (Some _) None => id = JNLAG_POOL6791V4
  | VPrefix4 (Some len) (Some a) => id = JNLAG_POOL6791V4 /\ network4 (P4 a len) /\
      (force = true \/ forall b, is_u32 b -> in_prefix 32 a len b -> ~ subnet_scoped b)
  | _ => False
  end.
(** The setting has the value. *)
Definition holds (id : Z) (v : gval) (g : globals) : Prop :=
  match v with
  | VU8 x => num g id = if is_boolean_setting id then (if x =? 0 then 0 else 1) else x
  | VU32 x => num g id = x
  | VPlateaus l => l <> [] -> normal l (stored (plateaus g))
  | VPrefix6 (Some len) (Some a) => (if id =? JNLAG_POOL6 then pool6 g else p6791v6 g) = C6 true (P6 a len)
  | VPrefix6 _ _ => set6 (if id =? JNLAG_POOL6 then pool6 g else p6791v6 g) = false
  | VPrefix4 (Some len) (Some a) => p6791v4 g = C4 true (P4 a len)
  | VPrefix4 _ _ => set4 (p6791v4 g) = false
  end.
(** The setting has the same value in both. *)
Definition unchanged (id : Z) (g g' : globals) : Prop :=
  (id <> JNLAG_POOL6 -> id <> JNLAG_PLATEAUS -> id <> JNLAG_POOL6791V6 -> id <> JNLAG_POOL6791V4 -> num g' id = num g id) /\
  (id = JNLAG_POOL6 -> pool6 g' = pool6 g) /\ (id = JNLAG_PLATEAUS -> plateaus g' = plateaus g) /\
  (id = JNLAG_POOL6791V6 -> p6791v6 g' = p6791v6 g) /\ (id = JNLAG_POOL6791V4 -> p6791v4 g' = p6791v4 g).
(** The settings and kinds of attributes of a type of instance. *)
Definition right_kind (xt id : Z) (v : gval) : Prop :=
  setting_of xt id /\
  match v with
  | VU8 _ => is_boolean_setting id = true \/ In id [JNLAG_TOS; JNLAG_HAIRPIN_MODE; JNLAG_F_ARGS]
  | VU32 _ => In id [JNLAG_LOWEST_IPV6_MTU; JNLAG_TTL_TCP_EST; JNLAG_TTL_TCP_TRANS; JNLAG_TTL_UDP; JNLAG_TTL_ICMP; JNLAG_MAX_STORED_PKTS;
                     JNLAG_JOOLD_FLUSH_DEADLINE; JNLAG_JOOLD_CAPACITY; JNLAG_JOOLD_MAX_PAYLOAD; JNLAG_JOOLD_MAX_SESSIONS_PER_PACKET]
  | _ => In id [JNLAG_POOL6; JNLAG_PLATEAUS; JNLAG_POOL6791V6; JNLAG_POOL6791V4]
  end.
(** The message's (last) value of the setting. *)
Definition asks (msg : list (Z * gval)) (id : Z) (v : gval) : Prop :=
  exists before after, msg = before ++ (id, v) :: after /\ (forall w, ~ In (id, w) after).
