(** C01, C02, C03, C48: addresses and prefixes. *)
Require Import Verif.Base Verif.Addr_Model Verif.Addr_Spec Verif.Addr_Proofs.

(** *** C01 *)
Theorem C01_rfc6052_roundtrip : forall p force a,
  wt_prefix6 p -> pool6_validate p force = OK -> is_u32 a ->
  exists r, rfc6052_4to6 p a = Some r /\ is_u128 r /\
            in_prefix 128 (p6_addr p) (p6_len p) r /\
            rfc6052_6to4 p r = Some a.
Proof. intros p f a Hw Hv. exact (rfc6052_roundtrip p a Hw (pool6_len p f Hv)). Qed.
Print Assumptions C01_rfc6052_roundtrip.

Theorem C01_rfc6052_injective : forall p force a b,
  wt_prefix6 p -> pool6_validate p force = OK -> is_u32 a -> is_u32 b ->
  rfc6052_4to6 p a = rfc6052_4to6 p b -> a = b.
Proof.
  exact (fun p f a b Hw Hv Ha Hb E =>
    match C01_rfc6052_roundtrip p f a Hw Hv Ha, C01_rfc6052_roundtrip p f b Hw Hv Hb with
    | ex_intro _ r (conj E1 (conj _ (conj _ R1))), ex_intro _ s (conj E2 (conj _ (conj _ R2))) =>
        ltac:(congruence)
    end).
Qed.
Print Assumptions C01_rfc6052_injective.

(** 64:ff9b::/96 and 192.0.2.33; 2001:db8:122:300::/56 is RFC 6052's own example. *)
Example C01_hyps : let p := P6 (0x64ff9b * 2^96) 96 in
  wt_prefix6 p /\ pool6_validate p false = OK /\ is_u32 0xc0000221 /\
  rfc6052_4to6 p 0xc0000221 = Some (0x64ff9b * 2^96 + 0xc0000221).
Proof. vm_compute. repeat split; congruence. Qed.
Example C01_hyps_56 : let p := P6 (0x20010db801220300 * 2^64) 56 in
  wt_prefix6 p /\ pool6_validate p false = OK /\
  rfc6052_4to6 p 0xc0000221 = Some 0x20010db8012203c00000022100000000.
Proof. vm_compute. repeat split; congruence. Qed.

(** *** C02 *)
Theorem C02_rfc6052_layout : forall p force a,
  pool6_validate p force = OK ->
  exists r, rfc6052_4to6 p a = Some r /\ rfc6052_layout (p6_addr p) (p6_len p) a r.
Proof. exact (fun p f a Hv => rfc6052_layout_ok p a (pool6_len p f Hv)). Qed.
Print Assumptions C02_rfc6052_layout.

Theorem C02_u_octet_zero : forall p a r,
  pool6_validate p false = OK -> rfc6052_4to6 p a = Some r -> octet 16 r 8 = 0.
Proof. exact rfc6052_uoctet. Qed.
Print Assumptions C02_u_octet_zero.

Theorem C02_6to4_fails_iff_outside : forall p force a,
  wt_prefix6 p -> pool6_validate p force = OK -> is_u128 a ->
  (rfc6052_6to4 p a = None <-> ~ in_prefix 128 (p6_addr p) (p6_len p) a).
Proof.
  intros p f a Hw Hv Ha.
  pose proof (pool6_len p f Hv) as Hl.
  rewrite rfc6052_6to4_none by exact Hl.
  rewrite <- prefix6_contains_spec; [|apply Hw|unfold rfc6052_len in Hl; lia|exact Ha].
  symmetry. apply not_true_iff_false.
Qed.
Print Assumptions C02_6to4_fails_iff_outside.

Theorem C02_6to4_extracts : forall p force a r,
  pool6_validate p force = OK -> rfc6052_6to4 p a = Some r ->
  0 <= r < 2^32 /\
  forall i, 0 <= i < 4 -> octet 4 r (Z.to_nat i) = octet 16 a (Z.to_nat (rfc6052_pos (p6_len p) i)).
Proof. exact (fun p f a r Hv => rfc6052_6to4_val p a r (pool6_len p f Hv)). Qed.
Print Assumptions C02_6to4_extracts.

(** A /40 prefix: 2001:db8:100::/40 with 192.0.2.33 gives 2001:db8:1c0:2:21::. *)
Example C02_hyps : let p := P6 (0x20010db801 * 2^88) 40 in
  pool6_validate p false = OK /\ rfc6052_4to6 p 0xc0000221 = Some 0x20010db801c000020021000000000000 /\
  rfc6052_6to4 p 0x20010db802c000020021000000000000 = None /\
  rfc6052_6to4 p 0x20010db801c0000200210000000000ff = Some 0xc0000221.
Proof. vm_compute. repeat split; congruence. Qed.
(** A forced prefix may have a nonzero u octet, which then survives. *)
Example C02_forced_u : pool6_validate (P6 (0x20010db80000000001 * 2^56) 96) true = OK /\
  pool6_validate (P6 (0x20010db80000000001 * 2^56) 96) false = Err EINVAL.
Proof. vm_compute. split; reflexivity. Qed.

(** *** C03 *)
Theorem C03_prefix4_contains : forall p a,
  is_u32 (p4_addr p) -> 0 <= p4_len p <= 32 -> is_u32 a ->
  (prefix4_contains p a = true <-> in_prefix 32 (p4_addr p) (p4_len p) a).
Proof. exact prefix4_contains_spec. Qed.
Print Assumptions C03_prefix4_contains.

Theorem C03_prefix6_contains : forall p a,
  is_u128 (p6_addr p) -> 0 <= p6_len p <= 128 -> is_u128 a ->
  (prefix6_contains p a = true <-> in_prefix 128 (p6_addr p) (p6_len p) a).
Proof. exact prefix6_contains_spec. Qed.
Print Assumptions C03_prefix6_contains.

Theorem C03_prefix4_intersects : forall p q,
  is_u32 (p4_addr p) -> 0 <= p4_len p <= 32 -> is_u32 (p4_addr q) -> 0 <= p4_len q <= 32 ->
  (prefix4_intersects p q = true <->
   exists a, is_u32 a /\ in_prefix 32 (p4_addr p) (p4_len p) a /\ in_prefix 32 (p4_addr q) (p4_len q) a).
Proof. exact prefix4_intersects_spec. Qed.
Print Assumptions C03_prefix4_intersects.

Theorem C03_prefix4_validate : forall p, wt_prefix4 p ->
  (prefix4_validate p = OK <-> p4_len p <= 32 /\ p4_addr p mod 2^(32 - p4_len p) = 0).
Proof. exact prefix4_validate_spec. Qed.
Print Assumptions C03_prefix4_validate.

Theorem C03_prefix6_validate : forall p, wt_prefix6 p ->
  (prefix6_validate p = OK <-> p6_len p <= 128 /\ p6_addr p mod 2^(128 - p6_len p) = 0).
Proof. exact prefix6_validate_spec. Qed.
Print Assumptions C03_prefix6_validate.

Theorem C03_prefix4_interval : forall p a, wt_prefix4 p -> prefix4_validate p = OK ->
  (in_prefix 32 (p4_addr p) (p4_len p) a <-> p4_addr p <= a < prefix4_next p) /\
  prefix4_next p - p4_addr p = prefix4_get_addr_count p.
Proof. exact (fun p a Hw Hv => conj (prefix4_next_spec p a Hw Hv) (prefix4_count_card p Hw Hv)). Qed.
Print Assumptions C03_prefix4_interval.

(** The boundary lengths 0 and 32. *)
Example C03_hyps : wt_prefix4 (P4 0 0) /\ prefix4_validate (P4 0 0) = OK /\ prefix4_next (P4 0 0) = 2^32 /\
  prefix4_contains (P4 0 0) 0xffffffff = true /\
  wt_prefix4 (P4 0xc0000201 32) /\ prefix4_validate (P4 0xc0000201 32) = OK /\
  prefix4_contains (P4 0xc0000201 32) 0xc0000200 = false /\
  prefix4_validate (P4 0xc0000201 31) = Err EINVAL /\
  prefix4_intersects (P4 0x0a000000 8) (P4 0x0a010000 16) = true /\
  prefix4_intersects (P4 0x0a000000 16) (P4 0x0a010000 16) = false.
Proof. vm_compute. repeat split; congruence. Qed.

(** *** C48 *)
Theorem C48_rfc6791v4_in_pool : forall pool n,
  wt_prefix4 pool -> prefix4_validate pool = OK -> is_u32 n ->
  is_u32 (rfc6791v4_get_pool_address pool n) /\
  in_prefix 32 (p4_addr pool) (p4_len pool) (rfc6791v4_get_pool_address pool n).
Proof. exact rfc6791v4_in_prefix. Qed.
Print Assumptions C48_rfc6791v4_in_pool.

Theorem C48_rfc6791v6_in_pool : forall p rnd rb,
  wt_prefix6 p -> prefix6_validate p = OK -> (forall i, is_u8 (rnd i)) -> is_u8 rb ->
  is_u128 (rfc6791v6_get_pool_address p rnd rb) /\
  in_prefix 128 (p6_addr p) (p6_len p) (rfc6791v6_get_pool_address p rnd rb).
Proof. exact rfc6791v6_in_prefix. Qed.
Print Assumptions C48_rfc6791v6_in_pool.

Example C48_hyps : rfc6791v4_get_pool_address (P4 0xc0000200 24) 300 = 0xc000022c /\
  rfc6791v6_get_pool_address (P6 (0x20010db8 * 2^96) 33) (fun _ => 0xab) 0xff = 0x20010db87fababababababababababab.
Proof. vm_compute. split; reflexivity. Qed.
