(** Lemmas on Netlink attributes. *)
Require Import Verif.Base Verif.Addr_Model Verif.Pool4_Model Verif.Bib_Model Verif.Glob_Model Verif.Inst_Model Verif.File_Model.
Require Import Verif.Nla_Model Verif.Nla_Spec.
Local Ltac Zify.zify_post_hook ::= Z.div_mod_to_equations.

Section Wire.
Context (h : host).

Lemma zlen_app : forall A (a b : list A), zlen (a ++ b) = zlen a + zlen b.
Proof. intros. unfold zlen. rewrite app_length. lia. Qed.
Lemma zlen_nil : forall A, zlen (@nil A) = 0. Proof. reflexivity. Qed.
Lemma zlen_nonneg : forall A (l : list A), 0 <= zlen l. Proof. intros. unfold zlen. lia. Qed.
Lemma zlen_octets : forall n v, zlen (octets n v) = Z.of_nat n.
Proof. intros. unfold zlen. rewrite octets_length. reflexivity. Qed.
Lemma length_host : forall n v, length (host_octets h n v) = n.
Proof. intros. unfold host_octets. destruct (h_be h); [|rewrite rev_length]; apply octets_length. Qed.
Lemma zlen_host : forall n v, zlen (host_octets h n v) = Z.of_nat n.
Proof. intros. unfold zlen. rewrite length_host. reflexivity. Qed.
Lemma u8_host : forall n v, Forall is_u8 (host_octets h n v).
Proof. intros. unfold host_octets. destruct (h_be h); [|apply Forall_rev]; apply octets_u8. Qed.
Lemma host_number_octets : forall n v, 0 <= v < 256 ^ Z.of_nat n -> host_number h (host_octets h n v) = v.
Proof.
  intros. unfold host_number, host_octets. destruct (h_be h); [|rewrite rev_involutive]; apply be_of_octets; assumption.
Qed.
Lemma host_number_mod : forall n v, host_number h (host_octets h n v) = v mod 256 ^ Z.of_nat n.
Proof.
  intros. unfold host_number, host_octets. pose proof (be_of_octets_aux n 0 v) as E. cbn [Nat.add] in E.
  destruct (h_be h); [|rewrite rev_involutive]; unfold octets; exact E.
Qed.
Lemma host_number_bound : forall l, Forall is_u8 l -> 0 <= host_number h l < 256 ^ zlen l.
Proof.
  intros l H. unfold host_number, zlen. destruct (h_be h); [apply be_of_bound; assumption|].
  rewrite <- (rev_length l). apply be_of_bound. apply Forall_rev. assumption.
Qed.

(** An attribute, as it is in a message *)
Definition blk (ty : Z) (data : list Z) : list Z :=
  host_octets h 2 (4 + zlen data) ++ host_octets h 2 ty ++ data ++ repeat 0 (Z.to_nat (padding (zlen data))).
Lemma zlen_blk : forall ty d, zlen (blk ty d) = 4 + zlen d + padding (zlen d).
Proof.
  intros. unfold blk. rewrite !zlen_app, !zlen_host. unfold zlen at 2. rewrite repeat_length. unfold padding. lia.
Qed.
Lemma blk_mod : forall ty d, zlen (blk ty d) mod 4 = 0.
Proof. intros. rewrite zlen_blk. unfold padding. lia. Qed.

Lemma firstn_app_exact : forall A (a b : list A) n, n = length a -> firstn n (a ++ b) = a.
Proof. intros A a b n ->. rewrite firstn_app, Nat.sub_diag, firstn_all. cbn. apply app_nil_r. Qed.
Lemma skipn_app_exact : forall A (a b : list A) n, n = length a -> skipn n (a ++ b) = b.
Proof. intros A a b n ->. rewrite skipn_app, Nat.sub_diag, skipn_all. reflexivity. Qed.

Lemma first_attr_blk : forall ty d after, 0 <= ty < 65536 -> zlen d <= 65531 ->
  first_attr h (blk ty d ++ after) = Some (Attr ty d, after).
Proof.
  intros ty d after Ht Hd. pose proof (zlen_nonneg _ d) as Hn. pose proof (zlen_nonneg _ after) as Ha.
  assert (Zb := zlen_blk ty d). assert (P : 0 <= padding (zlen d) < 4) by (unfold padding; lia).
  assert (N : host_number h (firstn 2 (blk ty d ++ after)) = 4 + zlen d).
  { unfold blk. rewrite <- !app_assoc. rewrite firstn_app_exact by (rewrite length_host; reflexivity).
    apply host_number_octets. change (256 ^ Z.of_nat 2) with 65536. lia. }
  unfold first_attr. rewrite N, !zlen_app, Zb.
  replace (4 + zlen d + padding (zlen d) + zlen after <? 4) with false by lia.
  replace (4 + zlen d <? 4) with false by lia.
  replace (4 + zlen d + padding (zlen d) + zlen after <? 4 + zlen d) with false by lia.
  cbn [orb].
  f_equal. f_equal.
  - f_equal.
    + unfold blk. rewrite <- !app_assoc. rewrite skipn_app_exact by (rewrite length_host; reflexivity).
      rewrite firstn_app_exact by (rewrite length_host; reflexivity).
      apply host_number_octets. change (256 ^ Z.of_nat 2) with 65536. lia.
    + unfold blk. rewrite <- !app_assoc. rewrite !app_assoc. rewrite <- (app_assoc (host_octets h 2 (4 + zlen d) ++ host_octets h 2 ty)).
      rewrite <- (app_assoc (host_octets h 2 (4 + zlen d) ++ host_octets h 2 ty)).
      rewrite skipn_app_exact by (rewrite app_length, !length_host; reflexivity).
      rewrite <- app_assoc. apply firstn_app_exact. unfold zlen. lia.
  - apply skipn_app_exact. unfold zlen in *. unfold padding in *. lia.
Qed.

(** Fuel *)
Lemma first_attr_shorter : forall l a rest, first_attr h l = Some (a, rest) -> (length rest + 4 <= length l)%nat.
Proof.
  intros l a rest E. unfold first_attr in E.
  destruct ((zlen l <? 4) || (host_number h (firstn 2 l) <? 4) || (zlen l <? host_number h (firstn 2 l))) eqn:C; [discriminate|].
  apply (f_equal (fun o => match o with Some p => snd p | None => [] end)) in E. cbn [snd] in E. subst rest. rewrite skipn_length. apply orb_false_iff in C. destruct C as (C & C3). apply orb_false_iff in C. destruct C as (C1 & C2).
  set (k := host_number h (firstn 2 l)) in *. assert (P : 0 <= padding k < 4) by (unfold padding; lia).
  unfold zlen in *. clear - C1 C2 C3 P. lia.
Qed.
Lemma first_attr_nil : first_attr h [] = None.
Proof. reflexivity. Qed.
Lemma each_attr_fuel : forall n m l, (length l <= n)%nat -> (length l <= m)%nat -> each_attr h n l = each_attr h m l.
Proof.
  induction n as [|n IH]; intros m l Hn Hm.
  - assert (l = []) by (destruct l; [reflexivity|cbn in Hn; lia]). subst l. destruct m; reflexivity.
  - destruct m as [|m].
    + assert (l = []) by (destruct l; [reflexivity|cbn in Hm; lia]). subst l. reflexivity.
    + cbn [each_attr]. destruct (first_attr h l) as [(a, rest)|] eqn:E; [|reflexivity].
      apply first_attr_shorter in E. rewrite (IH m rest) by lia. reflexivity.
Qed.
Lemma attributes_cons : forall l a rest, first_attr h l = Some (a, rest) ->
  attributes h l = (a :: fst (attributes h rest), snd (attributes h rest)).
Proof.
  intros l a rest E. unfold attributes at 1. pose proof (first_attr_shorter _ _ _ E) as S.
  destruct (length l) as [|n] eqn:L; [lia|]. cbn [each_attr]. rewrite E.
  unfold attributes. rewrite (each_attr_fuel n (length rest) rest) by lia.
  destruct (each_attr h (length rest) rest). reflexivity.
Qed.
Lemma attributes_nil : attributes h [] = ([], []).
Proof. reflexivity. Qed.
Lemma attributes_blk : forall ty d after, 0 <= ty < 65536 -> zlen d <= 65531 ->
  attributes h (blk ty d ++ after) = (Attr ty d :: fst (attributes h after), snd (attributes h after)).
Proof. intros. apply attributes_cons. apply first_attr_blk; assumption. Qed.
Lemma attributes_blk1 : forall ty d, 0 <= ty < 65536 -> zlen d <= 65531 ->
  attributes h (blk ty d) = ([Attr ty d], []).
Proof. intros. rewrite <- (app_nil_r (blk ty d)). rewrite attributes_blk by assumption. reflexivity. Qed.

(** ** Writing *)
Section Cap.
Context (cap : Z).

(** [w] writes the octets [x], whole or not at all *)
Definition writes (w : list Z -> put) (x : list Z) : Prop :=
  zlen x mod 4 = 0 /\
  forall b, if zlen b + zlen x <=? cap then w b = Put (b ++ x) else exists z, w b = NoRoom (b ++ z).
Definition clean (w : list Z -> put) : Prop := forall b b', w b = NoRoom b' -> b' = b.

Lemma put_writes : forall ty d, writes (nla_put h cap ty d) (blk ty d).
Proof.
  intros ty d. split; [apply blk_mod|]. intros b. unfold nla_put. fold (blk ty d). rewrite zlen_app.
  destruct (zlen b + zlen (blk ty d) <=? cap) eqn:C.
  - replace (cap <? zlen b + zlen (blk ty d)) with false by lia. reflexivity.
  - replace (cap <? zlen b + zlen (blk ty d)) with true by lia. exists []. rewrite app_nil_r. reflexivity.
Qed.
Lemma put_clean : forall ty d, clean (nla_put h cap ty d).
Proof. intros ty d b b' E. unfold nla_put in E. destruct (cap <? _) in E; [|discriminate]. injection E; intros <-. reflexivity. Qed.

Lemma done_writes : forall b, zlen b <= cap -> done b = Put (b ++ []).
Proof. intros. unfold done. rewrite app_nil_r. reflexivity. Qed.

Lemma andthen_writes : forall f g x y, writes f x -> writes g y -> writes (andthen f g) (x ++ y).
Proof.
  intros f g x y (Mx & Hf) (My & Hg). split; [rewrite zlen_app; lia|].
  intros b. specialize (Hf b). unfold andthen. rewrite zlen_app.
  pose proof (zlen_nonneg _ x). pose proof (zlen_nonneg _ y).
  destruct (zlen b + zlen x <=? cap) eqn:C.
  - rewrite Hf. specialize (Hg (b ++ x)). rewrite zlen_app in Hg.
    destruct (zlen b + zlen x + zlen y <=? cap) eqn:C2.
    + replace (zlen b + (zlen x + zlen y) <=? cap) with true by lia. rewrite app_assoc. exact Hg.
    + replace (zlen b + (zlen x + zlen y) <=? cap) with false by lia. destruct Hg as (z & ->). exists (x ++ z). rewrite app_assoc. reflexivity.
  - replace (zlen b + (zlen x + zlen y) <=? cap) with false by lia. destruct Hf as (z & ->). exists z. reflexivity.
Qed.
(** A loop that writes nothing at the end *)
Lemma fold_writes : forall (f : Z -> list Z -> put) (g : Z -> list Z) l, l <> [] -> (forall v, writes (f v) (g v)) ->
  writes (fold_right (fun v => andthen (f v)) done l) (flat_map g l).
Proof.
  intros f g l NE Hf. induction l as [|v l IH]; [contradiction|]. cbn [fold_right flat_map].
  destruct l as [|v2 l].
  - cbn [fold_right flat_map]. rewrite app_nil_r. destruct (Hf v) as (M & H). split; [exact M|]. intros b. specialize (H b).
    unfold andthen. destruct (zlen b + zlen (g v) <=? cap); [rewrite H; reflexivity|]. destruct H as (z & ->). exists z. reflexivity.
  - apply andthen_writes; [apply Hf|apply IH; discriminate].
Qed.

Lemma header_split : forall ty (b x : list Z), b ++ blk ty [] ++ x = b ++ host_octets h 2 4 ++ host_octets h 2 ty ++ x.
Proof. intros. unfold blk. rewrite zlen_nil. cbn [padding Z.opp Z.modulo Z.div_eucl Z.to_nat repeat app]. change (4 + 0) with 4. rewrite app_nil_r, <- app_assoc. reflexivity. Qed.

Lemma nest_end_k_eq : forall ty b x, zlen x mod 4 = 0 -> zlen x <= 65531 ->
  nla_nest_end_k h (length b) (b ++ blk ty [] ++ x) = b ++ blk ty x.
Proof.
  intros ty b x M S. unfold nla_nest_end_k. rewrite header_split.
  rewrite firstn_app_exact by reflexivity. f_equal.
  rewrite !zlen_app, !zlen_host. unfold blk.
  replace (Z.to_nat (padding (zlen x))) with O by (unfold padding; lia). cbn [repeat]. rewrite app_nil_r.
  f_equal.
  - f_equal. unfold u16. pose proof (zlen_nonneg _ x). fold (zlen b). rewrite Z.mod_small by lia. lia.
  - rewrite (app_assoc b). apply skipn_app_exact. rewrite app_length, length_host. reflexivity.
Qed.
Lemma nest_end_u_eq : forall ty b x, zlen x mod 4 = 0 -> 0 < zlen x -> zlen x <= 65531 ->
  nla_nest_end_u h (length b) (b ++ blk ty [] ++ x) = b ++ blk ty x.
Proof.
  intros ty b x M P S. unfold nla_nest_end_u. rewrite !zlen_app, zlen_blk, zlen_nil. unfold padding. fold (zlen b).
  replace ((65535 <? _) || _) with false; [apply nest_end_k_eq; assumption|].
  change (- 0) with 0. rewrite Zmod_0_l. symmetry. apply orb_false_iff. split; lia.
Qed.

Lemma nest_writes : forall ty finish body x,
  writes body x ->
  (forall b, finish (length b) (b ++ blk ty [] ++ x) = b ++ blk ty x) ->
  writes (nest (nla_put h cap ty []) finish body) (blk ty x) /\ clean (nest (nla_put h cap ty []) finish body).
Proof.
  intros ty finish body x (M & Hb) Hf. assert (Zx := zlen_nonneg _ x).
  assert (A : forall b, if zlen b + zlen (blk ty x) <=? cap then nest (nla_put h cap ty []) finish body b = Put (b ++ blk ty x)
                        else nest (nla_put h cap ty []) finish body b = NoRoom b).
  { intros b. destruct (put_writes ty []) as (_ & P). specialize (P b). pose proof (put_clean ty [] b) as PC.
    unfold nest. rewrite zlen_blk in P. rewrite zlen_nil in P. unfold padding in P. change (4 + 0 + - 0 mod 4) with 4 in P.
    rewrite zlen_blk. replace (padding (zlen x)) with 0 by (unfold padding; lia).
    destruct (zlen b + 4 <=? cap) eqn:C.
    - rewrite P. specialize (Hb (b ++ blk ty [])). rewrite zlen_app, zlen_blk, zlen_nil in Hb. unfold padding in Hb. change (4 + 0 + - 0 mod 4) with 4 in Hb.
      destruct (zlen b + 4 + zlen x <=? cap) eqn:C2.
      + replace (zlen b + (4 + zlen x + 0) <=? cap) with true by lia. rewrite Hb, <- app_assoc, Hf. reflexivity.
      + replace (zlen b + (4 + zlen x + 0) <=? cap) with false by lia. destruct Hb as (z & ->). unfold nla_nest_cancel.
        rewrite <- app_assoc, firstn_app_exact by reflexivity. reflexivity.
    - replace (zlen b + (4 + zlen x + 0) <=? cap) with false by lia. destruct P as (z & E). rewrite E. rewrite (PC _ E). reflexivity. }
  split.
  - split; [apply blk_mod|]. intros b. specialize (A b). destruct (_ <=? cap); [exact A|]. exists []. rewrite app_nil_r. exact A.
  - intros b b' E. specialize (A b). destruct (_ <=? cap); rewrite E in A; [discriminate|]. injection A; intros ->. reflexivity.
Qed.

Definition flag_k (ty : Z) : Z := if h_strict h then Z.lor ty NLA_F_NESTED else ty.
Definition flag_u (ty : Z) : Z := Z.lor NLA_F_NESTED ty.
Lemma nest_k_writes : forall ty body x, writes body x -> zlen x <= 65531 ->
  writes (nest_k h cap ty body) (blk (flag_k ty) x) /\ clean (nest_k h cap ty body).
Proof.
  intros ty body x W S. unfold nest_k, nla_nest_start_k. apply nest_writes; [exact W|].
  intros b. apply nest_end_k_eq; [apply W|exact S].
Qed.
Lemma nest_u_writes : forall ty body x, writes body x -> 0 < zlen x -> zlen x <= 65531 ->
  writes (nest_u h cap ty body) (blk (flag_u ty) x) /\ clean (nest_u h cap ty body).
Proof.
  intros ty body x W P S. unfold nest_u, nla_nest_start_u. apply nest_writes; [exact W|].
  intros b. apply nest_end_u_eq; [apply W|exact P|exact S].
Qed.
End Cap.

(** ** Reading *)

(** Types of attributes *)
Lemma nla_type_plain : forall ty d, 0 <= ty <= 16383 -> nla_type (Attr ty d) = ty.
Proof.
  intros. unfold nla_type, NLA_TYPE_MASK. cbn [a_type]. change 16383 with (Z.ones 14). rewrite Z.land_ones by lia. apply Z.mod_small. change (2 ^ 14) with 16384. lia.
Qed.
Lemma plain_not_nested : forall ty d, 0 <= ty <= 16383 -> is_nested (Attr ty d) = false.
Proof.
  intros. unfold is_nested, NLA_F_NESTED. cbn [a_type]. apply negb_false_iff. apply Z.eqb_eq.
  apply Z.bits_inj'. intros n Hn. rewrite Z.land_spec, Z.bits_0. change 32768 with (2 ^ 15). rewrite Z.pow2_bits_eqb by lia.
  destruct (15 =? n) eqn:E; [|apply andb_false_r]. assert (n = 15) by lia. subst n. rewrite andb_true_r.
  apply Z.testbit_false; [lia|]. change (2 ^ 15) with 32768. rewrite Z.div_small by lia. reflexivity.
Qed.
Lemma flag_add : forall ty, 0 <= ty <= 16383 -> Z.lor ty 32768 = ty + 32768.
Proof.
  intros. rewrite Z.add_nocarry_lxor; [rewrite Z.lxor_lor; [reflexivity|]|]; change 32768 with NLA_F_NESTED; pose proof (plain_not_nested ty [] H) as P;
  unfold is_nested in P; cbn [a_type] in P; apply negb_false_iff in P; apply Z.eqb_eq in P; exact P.
Qed.
(** The two ways of flagging *)
Definition flagger (f : Z -> Z) : Prop := f = flag_k \/ f = flag_u.
Lemma flag_cases : forall f ty, flagger f -> 0 <= ty <= 16383 -> f ty = ty + 32768 \/ f ty = ty /\ h_strict h = false.
Proof.
  intros f ty [->| ->] H; unfold flag_k, flag_u, NLA_F_NESTED.
  - destruct (h_strict h); [left; apply flag_add; exact H|right; split; reflexivity].
  - left. rewrite Z.lor_comm. apply flag_add; exact H.
Qed.
Lemma flag_range : forall f ty, flagger f -> 0 <= ty <= 16383 -> 0 <= f ty < 65536.
Proof. intros f ty F H. destruct (flag_cases f ty F H) as [->|(-> & _)]; lia. Qed.
Lemma nla_type_flag : forall f ty d, flagger f -> 0 <= ty <= 16383 -> nla_type (Attr (f ty) d) = ty.
Proof.
  intros f ty d F H. destruct (flag_cases f ty F H) as [->|(-> & _)]; [|apply nla_type_plain; exact H].
  unfold nla_type, NLA_TYPE_MASK. cbn [a_type]. change 16383 with (Z.ones 14). rewrite Z.land_ones by lia. change (2 ^ 14) with 16384. lia.
Qed.
Lemma flag_nested : forall f ty d, flagger f -> 0 <= ty <= 16383 -> h_strict h = true -> is_nested (Attr (f ty) d) = true.
Proof.
  intros f ty d F H S. destruct (flag_cases f ty F H) as [E|(_ & E)]; [|congruence].
  unfold is_nested. cbn [a_type]. rewrite E. rewrite <- flag_add by exact H. unfold NLA_F_NESTED.
  apply negb_true_iff. apply Z.eqb_neq. intros C. apply (f_equal (fun z => Z.testbit z 15)) in C.
  rewrite Z.land_spec, Z.lor_spec in C. change (Z.testbit 32768 15) with true in C. rewrite orb_true_r in C. discriminate.
Qed.

(** Parsing, attribute by attribute *)
Lemma step_k : forall maxtype p ty a l t, nla_type a = ty -> 1 <= ty <= maxtype -> validate_k h (p ty) a = true ->
  parse_each_k h maxtype p (a :: l) t = parse_each_k h maxtype p l (tset t ty a).
Proof.
  intros maxtype p ty a l t T R V. cbn [parse_each_k]. rewrite T, V.
  replace (ty =? 0) with false by lia. replace (maxtype <? ty) with false by lia. reflexivity.
Qed.
Lemma step_u : forall maxtype p ty a l t, nla_type a = ty -> ty <= maxtype -> validate_u (p ty) a = true ->
  parse_each_u maxtype p (a :: l) t = parse_each_u maxtype p l (tset t ty a).
Proof.
  intros maxtype p ty a l t T R V. cbn [parse_each_u]. rewrite T, V. replace (maxtype <? ty) with false by lia. reflexivity.
Qed.
Lemma val_host_k : forall ty n v, 0 <= ty <= 16383 -> (n = 1 \/ n = 2 \/ n = 4)%nat ->
  validate_k h (match n with 1%nat => PU8 | 2%nat => PU16 | _ => PU32 end) (Attr ty (host_octets h n v)) = true.
Proof.
  intros ty n v R [->|[->| ->]]; unfold validate_k; cbn [a_data]; rewrite zlen_host, plain_not_nested by exact R; destruct (h_strict h); reflexivity.
Qed.
Lemma val_u8_k : forall ty v, 0 <= ty <= 16383 -> validate_k h PU8 (Attr ty (host_octets h 1 v)) = true.
Proof. intros. apply (val_host_k ty 1 v); auto. Qed.
Lemma val_u16_k : forall ty v, 0 <= ty <= 16383 -> validate_k h PU16 (Attr ty (host_octets h 2 v)) = true.
Proof. intros. apply (val_host_k ty 2 v); auto. Qed.
Lemma val_u32_k : forall ty v, 0 <= ty <= 16383 -> validate_k h PU32 (Attr ty (host_octets h 4 v)) = true.
Proof. intros. apply (val_host_k ty 4 v); auto. Qed.
Lemma val_addr_k : forall ty n v, 0 <= ty <= 16383 -> validate_k h (PAddr (Z.of_nat n)) (Attr ty (octets n v)) = true.
Proof. intros. unfold validate_k. cbn [a_data]. rewrite zlen_octets, plain_not_nested by assumption. rewrite Z.leb_refl. destruct (h_strict h); reflexivity. Qed.
Lemma val_nested_k : forall f ty d, flagger f -> 0 <= ty <= 16383 -> 4 <= zlen d -> validate_k h PNested (Attr (f ty) d) = true.
Proof.
  intros f ty d F R S. unfold validate_k. cbn [a_data]. replace (4 <=? zlen d) with true by lia. rewrite orb_true_r, andb_true_r.
  destruct (h_strict h) eqn:E; [|reflexivity]. apply flag_nested; assumption.
Qed.
Lemma nested_k : forall f ty d maxtype p l t, flagger f -> 0 <= ty <= 16383 -> attributes h d = (l, []) -> parse_each_k h maxtype p l empty = Got t ->
  nla_parse_nested_k h maxtype (Attr (f ty) d) p = Got t.
Proof.
  intros f ty d maxtype p l t F R A P. unfold nla_parse_nested_k, nla_parse_k. cbn [a_data]. rewrite A, P. cbn [rbind].
  destruct (h_strict h) eqn:E; [|reflexivity]. rewrite flag_nested by assumption. reflexivity.
Qed.

(** Numbers *)
Lemma get_host : forall n ty v, 0 <= v < 256 ^ Z.of_nat n -> nla_get h n (Attr ty (host_octets h n v)) = Got v.
Proof.
  intros n ty v R. unfold nla_get. cbn [a_data]. rewrite length_host, Nat.ltb_irrefl.
  rewrite <- (length_host n v) at 1. rewrite firstn_all. rewrite host_number_octets by exact R. reflexivity.
Qed.
Lemma get_addr_k : forall n ty v, 0 <= v < 256 ^ Z.of_nat n -> jnla_get_addr n (Some (Attr ty (octets n v))) = Got v.
Proof.
  intros n ty v R. unfold jnla_get_addr, validate_null, validate_len, rbind. cbn [a_data]. rewrite octets_length, Nat.ltb_irrefl.
  rewrite <- (octets_length n v) at 1. rewrite firstn_all, be_of_octets by exact R. reflexivity.
Qed.
Lemma get_addr_u : forall n ty v, 0 <= v < 256 ^ Z.of_nat n -> nla_get_addr n (Some (Attr ty (octets n v))) = Got v.
Proof.
  intros n ty v R. unfold nla_get_addr. cbn [a_data]. rewrite octets_length, Nat.ltb_irrefl.
  rewrite <- (octets_length n v) at 1. rewrite firstn_all, be_of_octets by exact R. reflexivity.
Qed.

(** ** The values *)
Definition d_prefix6 (p : prefix6) : list Z := blk JNLAP_ADDR (octets 16 (p6_addr p)) ++ blk JNLAP_LEN (host_octets h 1 (p6_len p)).
Definition d_prefix4 (p : prefix4) : list Z := blk JNLAP_ADDR (octets 4 (p4_addr p)) ++ blk JNLAP_LEN (host_octets h 1 (p4_len p)).
Definition d_none : list Z := blk JNLAP_LEN (host_octets h 1 0).
Definition d_taddr6 (a : Z * Z) : list Z := blk JNLAT_ADDR (octets 16 (fst a)) ++ blk JNLAT_PORT (host_octets h 2 (snd a)).
Definition d_taddr4 (a : Z * Z) : list Z := blk JNLAT_ADDR (octets 4 (fst a)) ++ blk JNLAT_PORT (host_octets h 2 (snd a)).
Lemma zlen_prefix6 : forall p, zlen (d_prefix6 p) = 28.
Proof. intros. unfold d_prefix6. rewrite zlen_app, !zlen_blk, zlen_octets, zlen_host. reflexivity. Qed.
Lemma zlen_prefix4 : forall p, zlen (d_prefix4 p) = 16.
Proof. intros. unfold d_prefix4. rewrite zlen_app, !zlen_blk, zlen_octets, zlen_host. reflexivity. Qed.
Lemma zlen_none : zlen d_none = 8.
Proof. unfold d_none. rewrite zlen_blk, zlen_host. reflexivity. Qed.
Lemma zlen_taddr6 : forall p, zlen (d_taddr6 p) = 28.
Proof. intros. unfold d_taddr6. rewrite zlen_app, !zlen_blk, zlen_octets, zlen_host. reflexivity. Qed.
Lemma zlen_taddr4 : forall p, zlen (d_taddr4 p) = 16.
Proof. intros. unfold d_taddr4. rewrite zlen_app, !zlen_blk, zlen_octets, zlen_host. reflexivity. Qed.

Ltac lens := rewrite ?zlen_octets, ?zlen_host, ?zlen_prefix6, ?zlen_prefix4, ?zlen_none, ?zlen_taddr6, ?zlen_taddr4; lia.
Ltac rng := first [apply flag_range; [assumption|lia] | unfold JNLAP_ADDR, JNLAP_LEN, JNLAT_ADDR, JNLAT_PORT in *; lia].

Lemma attrs2 : forall t1 d1 t2 d2, 0 <= t1 < 65536 -> 0 <= t2 < 65536 -> zlen d1 <= 65531 -> zlen d2 <= 65531 ->
  attributes h (blk t1 d1 ++ blk t2 d2) = ([Attr t1 d1; Attr t2 d2], []).
Proof. intros. rewrite attributes_blk by assumption. rewrite attributes_blk1 by assumption. reflexivity. Qed.

Lemma parse2_addr_k : forall f ty n m a v p, flagger f -> 0 <= ty <= 16383 -> (m = 1 \/ m = 2)%nat -> (n <= 16)%nat ->
  p 1 = PAddr (Z.of_nat n) -> p 2 = (match m with 1%nat => PU8 | _ => PU16 end) ->
  nla_parse_nested_k h 2 (Attr (f ty) (blk 1 (octets n a) ++ blk 2 (host_octets h m v))) p =
  Got (tset (tset empty 1 (Attr 1 (octets n a))) 2 (Attr 2 (host_octets h m v))).
Proof.
  intros f ty n m a v p F R M N P1 P2. apply nested_k with (l := [Attr 1 (octets n a); Attr 2 (host_octets h m v)]); [exact F|exact R| |].
  - apply attrs2; try lia; rewrite ?zlen_octets, ?zlen_host; lia.
  - rewrite (step_k _ _ 1) by first [apply nla_type_plain; lia | lia | rewrite P1; apply val_addr_k; lia].
    rewrite (step_k _ _ 2) by first [apply nla_type_plain; lia | lia | rewrite P2; destruct M as [->| ->]; [apply val_u8_k|apply val_u16_k]; lia].
    reflexivity.
Qed.
Lemma parse2_addr_u : forall n m a v p, (m = 1 \/ m = 2)%nat -> (n <= 16)%nat ->
  p 1 = PAddr (Z.of_nat n) -> p 2 = (match m with 1%nat => PU8 | _ => PU16 end) ->
  nla_parse_u h 2 p (blk 1 (octets n a) ++ blk 2 (host_octets h m v)) =
  Got (tset (tset empty 1 (Attr 1 (octets n a))) 2 (Attr 2 (host_octets h m v))).
Proof.
  intros n m a v p M N P1 P2. unfold nla_parse_u. rewrite attrs2 by first [lia | rewrite ?zlen_octets, ?zlen_host; lia]. cbn [fst].
  rewrite (step_u _ _ 1); [|apply nla_type_plain; lia|lia|rewrite P1; cbn [validate_u a_data]; rewrite zlen_octets; lia].
  rewrite (step_u _ _ 2); [reflexivity|apply nla_type_plain; lia|lia|].
  rewrite P2; destruct M as [->| ->]; cbn [validate_u a_data]; rewrite zlen_host; reflexivity.
Qed.

Lemma r_prefix6_k : forall f ty p, flagger f -> 0 <= ty <= 16383 -> wt_prefix6 p -> jnla_get_prefix6_optional h (Some (Attr (f ty) (d_prefix6 p))) = Got (Some p).
Proof.
  intros f ty [a l] F R (W1 & W2). cbn [p6_addr p6_len] in *. unfold jnla_get_prefix6_optional, validate_null. cbn [rbind]. unfold d_prefix6. cbn [p6_addr p6_len].
  change JNLAP_ADDR with 1. change JNLAP_LEN with 2. change JNLAP_MAX with 2.
  rewrite (parse2_addr_k f ty 16 1 a l prefix6_policy); try assumption; try lia; try reflexivity.
  cbn [rbind tset Z.eqb Pos.eqb]. rewrite get_host by exact W2. cbn [rbind]. unfold jnla_get_addr6. rewrite get_addr_k by exact W1. reflexivity.
Qed.
Lemma r_prefix4_k : forall f ty p, flagger f -> 0 <= ty <= 16383 -> wt_prefix4 p -> jnla_get_prefix4_optional h (Some (Attr (f ty) (d_prefix4 p))) = Got (Some p).
Proof.
  intros f ty [a l] F R (W1 & W2). cbn [p4_addr p4_len] in *. unfold jnla_get_prefix4_optional, validate_null. cbn [rbind]. unfold d_prefix4. cbn [p4_addr p4_len].
  change JNLAP_ADDR with 1. change JNLAP_LEN with 2. change JNLAP_MAX with 2.
  rewrite (parse2_addr_k f ty 4 1 a l prefix4_policy); try assumption; try lia; try reflexivity.
  cbn [rbind tset Z.eqb Pos.eqb]. rewrite get_host by exact W2. cbn [rbind]. unfold jnla_get_addr4. rewrite get_addr_k by exact W1. reflexivity.
Qed.
Lemma parse_none : forall f ty p, flagger f -> 0 <= ty <= 16383 -> p 2 = PU8 ->
  nla_parse_nested_k h 2 (Attr (f ty) d_none) p = Got (tset empty 2 (Attr 2 (host_octets h 1 0))).
Proof.
  intros f ty p F R P. apply nested_k with (l := [Attr 2 (host_octets h 1 0)]); [exact F|exact R| |].
  - unfold d_none. change JNLAP_LEN with 2. apply attributes_blk1; [lia|rewrite zlen_host; lia].
  - rewrite (step_k _ _ 2) by first [apply nla_type_plain; lia | lia | rewrite P; apply val_u8_k; lia]. reflexivity.
Qed.
Lemma r_none6_k : forall f ty, flagger f -> 0 <= ty <= 16383 -> jnla_get_prefix6_optional h (Some (Attr (f ty) d_none)) = Got None.
Proof.
  intros. unfold jnla_get_prefix6_optional, validate_null. cbn [rbind]. change JNLAP_ADDR with 1. change JNLAP_LEN with 2. change JNLAP_MAX with 2.
  rewrite (parse_none f ty prefix6_policy) by (assumption || reflexivity). reflexivity.
Qed.
Lemma r_none4_k : forall f ty, flagger f -> 0 <= ty <= 16383 -> jnla_get_prefix4_optional h (Some (Attr (f ty) d_none)) = Got None.
Proof.
  intros. unfold jnla_get_prefix4_optional, validate_null. cbn [rbind]. change JNLAP_ADDR with 1. change JNLAP_LEN with 2. change JNLAP_MAX with 2.
  rewrite (parse_none f ty prefix4_policy) by (assumption || reflexivity). reflexivity.
Qed.
Lemma r_taddr6_k : forall f ty a, flagger f -> 0 <= ty <= 16383 -> fit_taddr6 a -> jnla_get_taddr6 h (Some (Attr (f ty) (d_taddr6 a))) = Got a.
Proof.
  intros f ty [a l] F R (W1 & W2). cbn [fst snd] in *. unfold jnla_get_taddr6, validate_null. cbn [rbind]. unfold d_taddr6. cbn [fst snd].
  change JNLAT_ADDR with 1. change JNLAT_PORT with 2. change JNLAT_MAX with 2.
  rewrite (parse2_addr_k f ty 16 2 a l taddr6_policy); try assumption; try lia; try reflexivity.
  cbn [rbind tset Z.eqb Pos.eqb]. unfold jnla_get_addr6. rewrite get_addr_k by exact W1. cbn [rbind].
  unfold jnla_get_port, validate_null. cbn [rbind]. rewrite get_host by exact W2. reflexivity.
Qed.
Lemma r_taddr4_k : forall f ty a, flagger f -> 0 <= ty <= 16383 -> fit_taddr4 a -> jnla_get_taddr4 h (Some (Attr (f ty) (d_taddr4 a))) = Got a.
Proof.
  intros f ty [a l] F R (W1 & W2). cbn [fst snd] in *. unfold jnla_get_taddr4, validate_null. cbn [rbind]. unfold d_taddr4. cbn [fst snd].
  change JNLAT_ADDR with 1. change JNLAT_PORT with 2. change JNLAT_MAX with 2.
  rewrite (parse2_addr_k f ty 4 2 a l taddr4_policy); try assumption; try lia; try reflexivity.
  cbn [rbind tset Z.eqb Pos.eqb]. unfold jnla_get_addr4. rewrite get_addr_k by exact W1. cbn [rbind].
  unfold jnla_get_port, validate_null. cbn [rbind]. rewrite get_host by exact W2. reflexivity.
Qed.
Lemma r_prefix6_u : forall ty p, wt_prefix6 p -> nla_get_prefix6 h (Some (Attr ty (d_prefix6 p))) = Got p.
Proof.
  intros ty [a l] (W1 & W2). cbn [p6_addr p6_len] in *. unfold nla_get_prefix6. cbn [a_data]. unfold d_prefix6. cbn [p6_addr p6_len].
  change JNLAP_ADDR with 1. change JNLAP_LEN with 2. change JNLAP_MAX with 2.
  rewrite (parse2_addr_u 16 1 a l prefix6_policy); try lia; try reflexivity.
  cbn [rbind tset Z.eqb Pos.eqb]. rewrite get_addr_u by exact W1. cbn [rbind]. rewrite get_host by exact W2. reflexivity.
Qed.
Lemma r_prefix4_u : forall ty p, wt_prefix4 p -> nla_get_prefix4 h (Some (Attr ty (d_prefix4 p))) = Got p.
Proof.
  intros ty [a l] (W1 & W2). cbn [p4_addr p4_len] in *. unfold nla_get_prefix4. cbn [a_data]. unfold d_prefix4. cbn [p4_addr p4_len].
  change JNLAP_ADDR with 1. change JNLAP_LEN with 2. change JNLAP_MAX with 2.
  rewrite (parse2_addr_u 4 1 a l prefix4_policy); try lia; try reflexivity.
  cbn [rbind tset Z.eqb Pos.eqb]. rewrite get_addr_u by exact W1. cbn [rbind]. rewrite get_host by exact W2. reflexivity.
Qed.
Lemma parse_none_u : forall p, p 2 = PU8 -> nla_parse_u h 2 p d_none = Got (tset empty 2 (Attr 2 (host_octets h 1 0))).
Proof.
  intros p P. unfold nla_parse_u, d_none. change JNLAP_LEN with 2. rewrite attributes_blk1 by first [lia | rewrite zlen_host; lia]. cbn [fst].
  rewrite (step_u _ _ 2); [reflexivity|apply nla_type_plain; lia|lia|]. rewrite P. cbn [validate_u a_data]. rewrite zlen_host. reflexivity.
Qed.
Lemma r_none6_u : forall ty, nla_get_prefix6 h (Some (Attr ty d_none)) = Bad ENOENT.
Proof. intros. unfold nla_get_prefix6. cbn [a_data]. change JNLAP_MAX with 2. rewrite (parse_none_u prefix6_policy) by reflexivity. reflexivity. Qed.
Lemma r_none4_u : forall ty, nla_get_prefix4 h (Some (Attr ty d_none)) = Bad ENOENT.
Proof. intros. unfold nla_get_prefix4. cbn [a_data]. change JNLAP_MAX with 2. rewrite (parse_none_u prefix4_policy) by reflexivity. reflexivity. Qed.
Lemma r_taddr6_u : forall ty a, fit_taddr6 a -> nla_get_taddr6 h (Some (Attr ty (d_taddr6 a))) = Got a.
Proof.
  intros ty [a l] (W1 & W2). cbn [fst snd] in *. unfold nla_get_taddr6, jnla_parse_nested_u. cbn [a_data]. unfold d_taddr6. cbn [fst snd].
  change JNLAT_ADDR with 1. change JNLAT_PORT with 2. change JNLAT_MAX with 2.
  rewrite (parse2_addr_u 16 2 a l taddr6_policy); try lia; try reflexivity.
  cbn [rbind]. match goal with |- context [validate_mandatory_attrs ?t ?m ?p] => replace (validate_mandatory_attrs t m p) with true by reflexivity end.
  cbn [rbind tset Z.eqb Pos.eqb]. unfold nla_get_ptr.
  rewrite get_addr_u by exact W1. cbn [rbind]. rewrite get_host by exact W2. reflexivity.
Qed.
Lemma r_taddr4_u : forall ty a, fit_taddr4 a -> nla_get_taddr4 h (Some (Attr ty (d_taddr4 a))) = Got a.
Proof.
  intros ty [a l] (W1 & W2). cbn [fst snd] in *. unfold nla_get_taddr4, jnla_parse_nested_u. cbn [a_data]. unfold d_taddr4. cbn [fst snd].
  change JNLAT_ADDR with 1. change JNLAT_PORT with 2. change JNLAT_MAX with 2.
  rewrite (parse2_addr_u 4 2 a l taddr4_policy); try lia; try reflexivity.
  cbn [rbind]. match goal with |- context [validate_mandatory_attrs ?t ?m ?p] => replace (validate_mandatory_attrs t m p) with true by reflexivity end.
  cbn [rbind tset Z.eqb Pos.eqb]. unfold nla_get_ptr.
  rewrite get_addr_u by exact W1. cbn [rbind]. rewrite get_host by exact W2. reflexivity.
Qed.

Section Entries.
Context (f : Z -> Z) (F : flagger f).
Definition d_eam (p6 : prefix6) (p4 : prefix4) : list Z := blk (f JNLAE_PREFIX6) (d_prefix6 p6) ++ blk (f JNLAE_PREFIX4) (d_prefix4 p4).
Definition d_pool4 (mark iterations flags proto : Z) (p : prefix4) (ports : Z * Z) : list Z :=
  blk JNLAP4_MARK (host_octets h 4 mark) ++ blk JNLAP4_ITERATIONS (host_octets h 4 iterations) ++
  blk JNLAP4_FLAGS (host_octets h 1 flags) ++ blk JNLAP4_PROTO (host_octets h 1 proto) ++
  blk (f JNLAP4_PREFIX) (d_prefix4 p) ++ blk JNLAP4_PORT_MIN (host_octets h 2 (fst ports)) ++ blk JNLAP4_PORT_MAX (host_octets h 2 (snd ports)).
Definition d_bib (a6 a4 : Z * Z) (proto : Z) (static : bool) : list Z :=
  blk (f JNLAB_SRC6) (d_taddr6 a6) ++ blk (f JNLAB_SRC4) (d_taddr4 a4) ++ blk JNLAB_PROTO (host_octets h 1 proto) ++
  blk JNLAB_STATIC (host_octets h 1 (if static then 1 else 0)).
Definition d_session (src6 dst6 src4 dst4 : Z * Z) (proto state timer dying : Z) : list Z :=
  blk (f JNLASE_SRC6) (d_taddr6 src6) ++ blk (f JNLASE_DST6) (d_taddr6 dst6) ++
  blk (f JNLASE_SRC4) (d_taddr4 src4) ++ blk (f JNLASE_DST4) (d_taddr4 dst4) ++
  blk JNLASE_PROTO (host_octets h 1 proto) ++ blk JNLASE_STATE (host_octets h 1 state) ++
  blk JNLASE_TIMER (host_octets h 1 timer) ++ blk JNLASE_EXPIRATION (host_octets h 4 dying).
Definition d_plateaus (l : list Z) : list Z := flat_map (fun v => blk JNLAL_ENTRY (host_octets h 2 v)) l.
Ltac zl := rewrite ?zlen_app, ?zlen_blk, ?zlen_host, ?zlen_octets, ?zlen_prefix6, ?zlen_prefix4, ?zlen_taddr6, ?zlen_taddr4.
Lemma zlen_eam : forall p6 p4, zlen (d_eam p6 p4) = 52.
Proof. intros. unfold d_eam. zl. reflexivity. Qed.
Lemma zlen_pool4 : forall m i g q p r, zlen (d_pool4 m i g q p r) = 68.
Proof. intros. unfold d_pool4. zl. reflexivity. Qed.
Lemma zlen_bib : forall a b q s, zlen (d_bib a b q s) = 68.
Proof. intros. unfold d_bib. zl. reflexivity. Qed.
Lemma zlen_session : forall a b c d q s t y, zlen (d_session a b c d q s t y) = 136.
Proof. intros. unfold d_session. zl. reflexivity. Qed.
Lemma zlen_plateaus : forall l, zlen (d_plateaus l) = 8 * zlen l.
Proof.
  induction l as [|v l IH]; [reflexivity|]. unfold d_plateaus in *. cbn [flat_map]. rewrite zlen_app, IH. zl.
  change (padding (Z.of_nat 2)) with 2. unfold zlen. cbn [length]. lia.
Qed.

Ltac consts := unfold JNLAE_PREFIX6, JNLAE_PREFIX4, JNLAE_MAX, JNLAP4_MARK, JNLAP4_ITERATIONS, JNLAP4_FLAGS, JNLAP4_PROTO, JNLAP4_PREFIX, JNLAP4_PORT_MIN, JNLAP4_PORT_MAX, JNLAP4_MAX,
  JNLAB_SRC6, JNLAB_SRC4, JNLAB_PROTO, JNLAB_STATIC, JNLAB_MAX, JNLASE_SRC6, JNLASE_DST6, JNLASE_SRC4, JNLASE_DST4, JNLASE_PROTO, JNLASE_STATE, JNLASE_TIMER, JNLASE_EXPIRATION, JNLASE_MAX in *.
Ltac side := first [apply flag_range; [exact F|lia] | lia | (rewrite ?zlen_host, ?zlen_prefix6, ?zlen_prefix4, ?zlen_taddr6, ?zlen_taddr4; lia)].
Ltac atts := repeat (rewrite attributes_blk by side); rewrite attributes_blk1 by side; reflexivity.
Ltac ty_ := first [apply nla_type_plain; lia | apply nla_type_flag; [exact F|lia]].
Ltac vk := first [apply val_u8_k; lia | apply val_u16_k; lia | apply val_u32_k; lia | apply val_nested_k; [exact F|lia|rewrite ?zlen_prefix6, ?zlen_prefix4, ?zlen_taddr6, ?zlen_taddr4; lia]].
Ltac stepk n := rewrite (step_k _ _ n); [|ty_|lia|vk].
Ltac vu := cbn [assoc validate_u a_data]; first [reflexivity | rewrite zlen_host; reflexivity].
Ltac stepu n := rewrite (step_u _ _ n); [|ty_|lia|first [reflexivity | (match goal with |- validate_u ?p _ = _ => let p' := eval vm_compute in p in change p with p' end; cbn [validate_u a_data]; rewrite ?zlen_host; reflexivity)]].

Lemma p_eam_k : forall ty p6 p4, 0 <= ty <= 16383 ->
  nla_parse_nested_k h 2 (Attr (f ty) (d_eam p6 p4)) eam_policy = Got (tset (tset empty 1 (Attr (f 1) (d_prefix6 p6))) 2 (Attr (f 2) (d_prefix4 p4))).
Proof.
  intros ty p6 p4 R. apply nested_k with (l := [Attr (f 1) (d_prefix6 p6); Attr (f 2) (d_prefix4 p4)]); [exact F|exact R| |].
  - unfold d_eam. consts. atts.
  - stepk 1. stepk 2. reflexivity.
Qed.
Lemma mandatory_k6 : forall ty p, 0 <= ty <= 16383 -> wt_prefix6 p -> jnla_get_prefix6 h (Some (Attr (f ty) (d_prefix6 p))) = Got p.
Proof. intros. unfold jnla_get_prefix6. rewrite r_prefix6_k by assumption. reflexivity. Qed.
Lemma mandatory_k4 : forall ty p, 0 <= ty <= 16383 -> wt_prefix4 p -> jnla_get_prefix4 h (Some (Attr (f ty) (d_prefix4 p))) = Got p.
Proof. intros. unfold jnla_get_prefix4. rewrite r_prefix4_k by assumption. reflexivity. Qed.
Lemma r_eam_k : forall ty p6 p4, 0 <= ty <= 16383 -> wt_prefix6 p6 -> wt_prefix4 p4 ->
  jnla_get_eam h (Some (Attr (f ty) (d_eam p6 p4))) = Got (EEam p6 p4).
Proof.
  intros ty p6 p4 R W6 W4. unfold jnla_get_eam, validate_null. cbn [rbind]. consts. rewrite p_eam_k by exact R. cbn [rbind tset Z.eqb Pos.eqb].
  rewrite mandatory_k6, mandatory_k4 by first [lia | assumption]. reflexivity.
Qed.
Lemma r_eam_u : forall ty p6 p4, wt_prefix6 p6 -> wt_prefix4 p4 -> nla_get_eam h (Attr ty (d_eam p6 p4)) = Got (EEam p6 p4).
Proof.
  intros ty p6 p4 W6 W4. unfold nla_get_eam, jnla_parse_nested_u, nla_parse_u. cbn [a_data]. consts.
  replace (attributes h (d_eam p6 p4)) with ([Attr (f 1) (d_prefix6 p6); Attr (f 2) (d_prefix4 p4)], @nil Z) by (symmetry; unfold d_eam; consts; atts).
  cbn [fst]. stepu 1. stepu 2. cbn [parse_each_u rbind].
  match goal with |- context [validate_mandatory_attrs ?t ?m ?p] => replace (validate_mandatory_attrs t m p) with true by reflexivity end.
  cbn [rbind tset Z.eqb Pos.eqb]. rewrite r_prefix6_u, r_prefix4_u by assumption. reflexivity.
Qed.

Definition l_pool4 (mark iterations flags proto : Z) (p : prefix4) (ports : Z * Z) : list attr :=
  [Attr 1 (host_octets h 4 mark); Attr 2 (host_octets h 4 iterations); Attr 3 (host_octets h 1 flags); Attr 4 (host_octets h 1 proto);
   Attr (f 5) (d_prefix4 p); Attr 6 (host_octets h 2 (fst ports)); Attr 7 (host_octets h 2 (snd ports))].
Lemma a_pool4 : forall m i g q p r, attributes h (d_pool4 m i g q p r) = (l_pool4 m i g q p r, []).
Proof. intros. unfold d_pool4, l_pool4. consts. atts. Qed.
Lemma r_pool4_k : forall ty m i g q p r, 0 <= ty <= 16383 -> fit_entry (EPool4 m i g q p r) ->
  jnla_get_pool4 h (Some (Attr (f ty) (d_pool4 m i g q p r))) = Got (EPool4 m i g q p r).
Proof.
  intros ty m i g q p r R (W1 & W2 & W3 & W4 & W5 & W6 & W7). unfold jnla_get_pool4, validate_null. cbn [rbind]. consts.
  erewrite nested_k; [|exact F|exact R|apply a_pool4|unfold l_pool4; stepk 1; stepk 2; stepk 3; stepk 4; stepk 5; stepk 6; stepk 7; reflexivity].
  cbn [rbind tset Z.eqb Pos.eqb get_or_zero]. unfold jnla_get_u8, jnla_get_u16, validate_null. cbn [rbind].
  repeat (rewrite get_host by assumption; cbn [rbind]).
  rewrite mandatory_k4 by first [lia | assumption]. cbn [rbind]. repeat (rewrite get_host by assumption; cbn [rbind]). destruct r; reflexivity.
Qed.
Lemma r_pool4_u : forall ty m i g q p r, fit_entry (EPool4 m i g q p r) ->
  nla_get_pool4 h (Attr ty (d_pool4 m i g q p r)) = Got (EPool4 m i g q p r).
Proof.
  intros ty m i g q p r (W1 & W2 & W3 & W4 & W5 & W6 & W7). unfold nla_get_pool4, jnla_parse_nested_u, nla_parse_u. cbn [a_data]. consts.
  rewrite a_pool4. cbn [fst]. unfold l_pool4. stepu 1; stepu 2; stepu 3; stepu 4; stepu 5; stepu 6; stepu 7. cbn [parse_each_u rbind].
  match goal with |- context [validate_mandatory_attrs ?t ?m ?p] => replace (validate_mandatory_attrs t m p) with true by reflexivity end.
  cbn [rbind tset Z.eqb Pos.eqb nla_get_ptr]. repeat (rewrite get_host by assumption; cbn [rbind]).
  rewrite r_prefix4_u by assumption. destruct r; reflexivity.
Qed.

Definition l_bib (a6 a4 : Z * Z) (proto : Z) (static : bool) : list attr :=
  [Attr (f 1) (d_taddr6 a6); Attr (f 2) (d_taddr4 a4); Attr 3 (host_octets h 1 proto); Attr 4 (host_octets h 1 (if static then 1 else 0))].
Lemma a_bib : forall a b q s, attributes h (d_bib a b q s) = (l_bib a b q s, []).
Proof. intros. unfold d_bib, l_bib. consts. atts. Qed.
Lemma static_u8 : forall s : bool, 0 <= (if s then 1 else 0) < 256 ^ Z.of_nat 1.
Proof. intros. change (256 ^ Z.of_nat 1) with 256. destruct s; lia. Qed.
Lemma static_back : forall s : bool, negb ((if s then 1 else 0) =? 0) = s.
Proof. intros []; reflexivity. Qed.
Lemma r_bib_k : forall ty a b q s, 0 <= ty <= 16383 -> fit_entry (EBib a b q s) ->
  jnla_get_bib h (Some (Attr (f ty) (d_bib a b q s))) = Got (EBib a b q s).
Proof.
  intros ty a b q s R (W1 & W2 & W3). unfold jnla_get_bib, validate_null. cbn [rbind]. consts.
  erewrite nested_k; [|exact F|exact R|apply a_bib|unfold l_bib; stepk 1; stepk 2; stepk 3; stepk 4; reflexivity].
  cbn [rbind tset Z.eqb Pos.eqb get_or_zero]. rewrite r_taddr6_k by first [exact F | lia | assumption]. cbn [rbind].
  rewrite r_taddr4_k by first [exact F | lia | assumption]. cbn [rbind]. unfold jnla_get_u8, validate_null. cbn [rbind].
  repeat (rewrite get_host by first [assumption | apply static_u8]; cbn [rbind]). rewrite static_back. reflexivity.
Qed.
Lemma r_bib_u : forall ty a b q s, fit_entry (EBib a b q s) -> nla_get_bib h (Attr ty (d_bib a b q s)) = Got (EBib a b q s).
Proof.
  intros ty a b q s (W1 & W2 & W3). unfold nla_get_bib, jnla_parse_nested_u, nla_parse_u. cbn [a_data]. consts.
  rewrite a_bib. cbn [fst]. unfold l_bib. stepu 1; stepu 2; stepu 3; stepu 4. cbn [parse_each_u rbind].
  match goal with |- context [validate_mandatory_attrs ?t ?m ?p] => replace (validate_mandatory_attrs t m p) with true by reflexivity end.
  cbn [rbind tset Z.eqb Pos.eqb nla_get_ptr]. rewrite r_taddr6_u by assumption. cbn [rbind]. rewrite r_taddr4_u by assumption. cbn [rbind].
  repeat (rewrite get_host by first [assumption | apply static_u8]; cbn [rbind]). rewrite static_back. reflexivity.
Qed.

Definition l_session (src6 dst6 src4 dst4 : Z * Z) (proto state timer dying : Z) : list attr :=
  [Attr (f 1) (d_taddr6 src6); Attr (f 2) (d_taddr6 dst6); Attr (f 3) (d_taddr4 src4); Attr (f 4) (d_taddr4 dst4);
   Attr 5 (host_octets h 1 proto); Attr 6 (host_octets h 1 state); Attr 7 (host_octets h 1 timer); Attr 8 (host_octets h 4 dying)].
Lemma a_session : forall a b c d q s t y, attributes h (d_session a b c d q s t y) = (l_session a b c d q s t y, []).
Proof. intros. unfold d_session, l_session. consts. atts. Qed.
Lemma r_session_u : forall ty a b c d q s t y, fit_session (US a b c d q s y) ->
  nla_get_session h (Attr ty (d_session a b c d q s t y)) = Got (US a b c d q s y).
Proof.
  intros ty a b c d q s t y (W1 & W2 & W3 & W4 & W5 & W6 & W7). cbn [us_src6 us_dst6 us_src4 us_dst4 us_proto us_state us_dying] in *.
  unfold nla_get_session, jnla_parse_nested_u, nla_parse_u. cbn [a_data]. consts.
  rewrite a_session. cbn [fst]. unfold l_session. stepu 1; stepu 2; stepu 3; stepu 4; stepu 5; stepu 6; stepu 7; stepu 8. cbn [parse_each_u rbind].
  match goal with |- context [validate_mandatory_attrs ?t ?m ?p] => replace (validate_mandatory_attrs t m p) with true by reflexivity end.
  cbn [rbind tset Z.eqb Pos.eqb nla_get_ptr]. repeat (rewrite r_taddr6_u by assumption; cbn [rbind]).
  repeat (rewrite r_taddr4_u by assumption; cbn [rbind]).
  repeat (rewrite get_host by assumption; cbn [rbind]). reflexivity.
Qed.

(** Plateaus *)
Lemma a_plateaus : forall l, attributes h (d_plateaus l) = (map (fun v => Attr 1 (host_octets h 2 v)) l, []).
Proof.
  induction l as [|v l IH]; [reflexivity|]. unfold d_plateaus in *. cbn [flat_map map]. change JNLAL_ENTRY with 1 in *.
  rewrite attributes_blk by side. rewrite IH. reflexivity.
Qed.
Lemma p_plateaus_k : forall l t, exists t', parse_each_k h 1 plateau_list_policy (map (fun v => Attr 1 (host_octets h 2 v)) l) t = Got t'.
Proof.
  induction l as [|v l IH]; intros t; [exists t; reflexivity|]. cbn [map]. rewrite (step_k _ _ 1); [apply IH|apply nla_type_plain; lia|lia|].
  apply val_u16_k; lia.
Qed.
Lemma p_plateaus_u : forall l t, exists t', parse_each_u 1 plateau_list_policy (map (fun v => Attr 1 (host_octets h 2 v)) l) t = Got t'.
Proof.
  induction l as [|v l IH]; intros t; [exists t; reflexivity|]. cbn [map]. rewrite (step_u _ _ 1); [apply IH|apply nla_type_plain; lia|lia|].
  cbn [validate_u a_data plateau_list_policy assoc JNLAL_ENTRY Z.eqb Pos.eqb]. rewrite zlen_host. reflexivity.
Qed.
Lemma g_plateaus : forall l c, Forall is_u16 l -> c + zlen l <= 64 -> get_each_plateau h c (map (fun v => Attr 1 (host_octets h 2 v)) l) = Got l.
Proof.
  induction l as [|v l IH]; intros c W C; [reflexivity|]. cbn [map get_each_plateau]. inversion W; subst.
  unfold zlen in C. cbn [length] in C. replace (64 <=? c) with false by lia.
  rewrite get_host by assumption. cbn [rbind]. rewrite IH; [reflexivity|assumption|unfold zlen; lia].
Qed.
Lemma r_plateaus_k : forall ty l, Forall is_u16 l -> zlen l <= 64 -> jnla_get_plateau_values h (Some (Attr ty (d_plateaus l))) = Got l.
Proof.
  intros ty l W S. unfold jnla_get_plateau_values, validate_null, nla_validate_k, nla_parse_k. cbn [rbind a_data]. change JNLAL_MAX with 1.
  rewrite a_plateaus. destruct (p_plateaus_k l empty) as (t' & ->). cbn [rbind fst]. apply g_plateaus; [exact W|lia].
Qed.
Lemma r_plateaus_u : forall ty l, Forall is_u16 l -> zlen l <= 64 -> nla_get_plateaus h (Attr ty (d_plateaus l)) = Got l.
Proof.
  intros ty l W S. unfold nla_get_plateaus, jnla_validate_list, nla_parse_u. cbn [a_data]. change JNLAL_MAX with 1.
  rewrite a_plateaus. cbn [fst]. destruct (p_plateaus_u l empty) as (t' & ->). cbn [rbind fst].
  replace (forallb _ _) with true; [cbn [rbind]; apply g_plateaus; [exact W|lia]|].
  symmetry. apply forallb_forall. intros a I. apply in_map_iff in I. destruct I as (v & <- & _). rewrite nla_type_plain by lia. reflexivity.
Qed.
End Entries.

(** ** Writing the values *)
Lemma carried : forall (V W : Type) (write : Z -> Z -> V -> list Z -> put) (read : attr -> rd W) v w x f size,
  flagger f -> size = 4 + zlen x -> zlen x mod 4 = 0 -> zlen x <= 65531 ->
  (forall cap ty, 1 <= ty <= 16383 -> writes cap (write cap ty v) (blk (f ty) x) /\ clean (write cap ty v)) ->
  (forall ty, 1 <= ty <= 16383 -> read (Attr (f ty) x) = Got w) ->
  carries h write read v w size.
Proof.
  intros V W write read v w x f size F -> M S HW HR cap ty b R.
  destruct (HW cap ty R) as ((_ & A) & C). specialize (A b). rewrite zlen_blk in A.
  replace (padding (zlen x)) with 0 in A by (unfold padding; lia).
  destruct (zlen b + (4 + zlen x + 0) <=? cap) eqn:E.
  - rewrite A. split; [lia|]. exists (blk (f ty) x). split; [reflexivity|]. split.
    + rewrite zlen_blk. replace (padding (zlen x)) with 0 by (unfold padding; lia). lia.
    + intros after. exists (Attr (f ty) x). split; [apply first_attr_blk; [apply flag_range; [exact F|lia]|exact S]|].
      split; [apply nla_type_flag; [exact F|lia]|apply HR; exact R].
  - destruct A as (z & A). rewrite A. split; [lia|]. apply (C _ _ A).
Qed.

Lemma flagger_k : flagger flag_k. Proof. left. reflexivity. Qed.
Lemma flagger_u : flagger flag_u. Proof. right. reflexivity. Qed.

Section Writers.
Context (cap : Z).
Let wp := put_writes cap.
Ltac zs := rewrite ?zlen_prefix6, ?zlen_prefix4, ?zlen_none, ?zlen_taddr6, ?zlen_taddr4, ?zlen_eam, ?zlen_pool4, ?zlen_bib, ?zlen_session; lia.
Ltac leaf := first [apply put_writes | assumption].

Lemma w_prefix6_k : forall ty p, writes cap (jnla_put_prefix6 h cap ty (Some p)) (blk (flag_k ty) (d_prefix6 p)) /\ clean (jnla_put_prefix6 h cap ty (Some p)).
Proof. intros. apply nest_k_writes; [apply andthen_writes; leaf|zs]. Qed.
Lemma w_prefix4_k : forall ty p, writes cap (jnla_put_prefix4 h cap ty (Some p)) (blk (flag_k ty) (d_prefix4 p)) /\ clean (jnla_put_prefix4 h cap ty (Some p)).
Proof. intros. apply nest_k_writes; [apply andthen_writes; leaf|zs]. Qed.
Lemma w_none6_k : forall ty, writes cap (jnla_put_prefix6 h cap ty None) (blk (flag_k ty) d_none) /\ clean (jnla_put_prefix6 h cap ty None).
Proof. intros. apply nest_k_writes; [leaf|zs]. Qed.
Lemma w_none4_k : forall ty, writes cap (jnla_put_prefix4 h cap ty None) (blk (flag_k ty) d_none) /\ clean (jnla_put_prefix4 h cap ty None).
Proof. intros. apply nest_k_writes; [leaf|zs]. Qed.
Lemma w_taddr6_k : forall ty a, writes cap (jnla_put_taddr6 h cap ty a) (blk (flag_k ty) (d_taddr6 a)) /\ clean (jnla_put_taddr6 h cap ty a).
Proof. intros. apply nest_k_writes; [apply andthen_writes; leaf|zs]. Qed.
Lemma w_taddr4_k : forall ty a, writes cap (jnla_put_taddr4 h cap ty a) (blk (flag_k ty) (d_taddr4 a)) /\ clean (jnla_put_taddr4 h cap ty a).
Proof. intros. apply nest_k_writes; [apply andthen_writes; leaf|zs]. Qed.
Lemma w_eam_k : forall ty p6 p4, writes cap (jnla_put_eam h cap ty p6 p4) (blk (flag_k ty) (d_eam flag_k p6 p4)) /\ clean (jnla_put_eam h cap ty p6 p4).
Proof. intros. apply nest_k_writes; [apply andthen_writes; [apply w_prefix6_k|apply w_prefix4_k]|zs]. Qed.
Lemma w_pool4_k : forall ty m i g q p r, writes cap (jnla_put_pool4 h cap ty m i g q p r) (blk (flag_k ty) (d_pool4 flag_k m i g q p r)) /\ clean (jnla_put_pool4 h cap ty m i g q p r).
Proof. intros. apply nest_k_writes; [|zs]. do 4 (apply andthen_writes; [leaf|]). apply andthen_writes; [apply w_prefix4_k|]. apply andthen_writes; leaf. Qed.
Lemma w_bib_k : forall ty a b q s, writes cap (jnla_put_bib h cap ty a b q s) (blk (flag_k ty) (d_bib flag_k a b q s)) /\ clean (jnla_put_bib h cap ty a b q s).
Proof. intros. apply nest_k_writes; [|zs]. apply andthen_writes; [apply w_taddr6_k|]. apply andthen_writes; [apply w_taddr4_k|]. apply andthen_writes; leaf. Qed.
Lemma w_session_k : forall ty a b c d q s t y, writes cap (jnla_put_session h cap ty a b c d q s t y) (blk (flag_k ty) (d_session flag_k a b c d q s t y)) /\ clean (jnla_put_session h cap ty a b c d q s t y).
Proof.
  intros. apply nest_k_writes; [|zs]. do 2 (apply andthen_writes; [apply w_taddr6_k|]). do 2 (apply andthen_writes; [apply w_taddr4_k|]).
  do 3 (apply andthen_writes; [leaf|]). leaf.
Qed.
Lemma w_plateaus_k : forall ty l, l <> [] -> zlen l <= 8000 -> writes cap (jnla_put_plateaus h cap ty l) (blk (flag_k ty) (d_plateaus l)) /\ clean (jnla_put_plateaus h cap ty l).
Proof. intros ty l N S. apply nest_k_writes; [apply (fold_writes cap (fun v => nla_put_u16 h cap JNLAL_ENTRY v)); [exact N|intros; apply put_writes]|rewrite zlen_plateaus; lia]. Qed.

Lemma w_prefix6_u : forall ty p, writes cap (nla_put_prefix6 h cap ty (Some p)) (blk (flag_u ty) (d_prefix6 p)) /\ clean (nla_put_prefix6 h cap ty (Some p)).
Proof. intros. apply nest_u_writes; [apply andthen_writes; leaf|zs|zs]. Qed.
Lemma w_prefix4_u : forall ty p, writes cap (nla_put_prefix4 h cap ty (Some p)) (blk (flag_u ty) (d_prefix4 p)) /\ clean (nla_put_prefix4 h cap ty (Some p)).
Proof. intros. apply nest_u_writes; [apply andthen_writes; leaf|zs|zs]. Qed.
Lemma w_none6_u : forall ty, writes cap (nla_put_prefix6 h cap ty None) (blk (flag_u ty) d_none) /\ clean (nla_put_prefix6 h cap ty None).
Proof. intros. apply nest_u_writes; [leaf|zs|zs]. Qed.
Lemma w_none4_u : forall ty, writes cap (nla_put_prefix4 h cap ty None) (blk (flag_u ty) d_none) /\ clean (nla_put_prefix4 h cap ty None).
Proof. intros. apply nest_u_writes; [leaf|zs|zs]. Qed.
Lemma w_taddr6_u : forall ty a, writes cap (nla_put_taddr6 h cap ty a) (blk (flag_u ty) (d_taddr6 a)) /\ clean (nla_put_taddr6 h cap ty a).
Proof. intros. apply nest_u_writes; [apply andthen_writes; leaf|zs|zs]. Qed.
Lemma w_taddr4_u : forall ty a, writes cap (nla_put_taddr4 h cap ty a) (blk (flag_u ty) (d_taddr4 a)) /\ clean (nla_put_taddr4 h cap ty a).
Proof. intros. apply nest_u_writes; [apply andthen_writes; leaf|zs|zs]. Qed.
Lemma w_eam_u : forall ty p6 p4, writes cap (nla_put_eam h cap ty p6 p4) (blk (flag_u ty) (d_eam flag_u p6 p4)) /\ clean (nla_put_eam h cap ty p6 p4).
Proof. intros. apply nest_u_writes; [apply andthen_writes; [apply w_prefix6_u|apply w_prefix4_u]|zs|zs]. Qed.
Lemma w_pool4_u : forall ty m i g q p r, writes cap (nla_put_pool4 h cap ty m i g q p r) (blk (flag_u ty) (d_pool4 flag_u m i g q p r)) /\ clean (nla_put_pool4 h cap ty m i g q p r).
Proof. intros. apply nest_u_writes; [|zs|zs]. do 4 (apply andthen_writes; [leaf|]). apply andthen_writes; [apply w_prefix4_u|]. apply andthen_writes; leaf. Qed.
Lemma w_bib_u : forall ty a b q s, writes cap (nla_put_bib h cap ty a b q s) (blk (flag_u ty) (d_bib flag_u a b q s)) /\ clean (nla_put_bib h cap ty a b q s).
Proof. intros. apply nest_u_writes; [|zs|zs]. apply andthen_writes; [apply w_taddr6_u|]. apply andthen_writes; [apply w_taddr4_u|]. apply andthen_writes; leaf. Qed.
Lemma w_plateaus_u : forall ty l, l <> [] -> zlen l <= 8000 -> writes cap (nla_put_plateaus h cap ty l) (blk (flag_u ty) (d_plateaus l)) /\ clean (nla_put_plateaus h cap ty l).
Proof.
  intros ty l N S. apply nest_u_writes; [apply (fold_writes cap (fun v => nla_put_u16 h cap JNLAL_ENTRY v)); [exact N|intros; apply put_writes]|rewrite zlen_plateaus|rewrite zlen_plateaus; lia].
  destruct l; [contradiction|]. unfold zlen. cbn [length]. lia.
Qed.
End Writers.

(** ** The module reads anything *)
Definition yields {A} (P : A -> Prop) (r : rd A) : Prop := match r with Got a => P a | Bad _ => True | Stray => False end.
Lemma yields_bind : forall A B (P : A -> Prop) (Q : B -> Prop) r g, yields P r -> (forall a, P a -> yields Q (g a)) -> yields Q (rbind r g).
Proof. intros A B P Q [a|e|] g H G; cbn in *; auto. Qed.
Lemma yields_imp : forall A (P Q : A -> Prop) r, yields P r -> (forall a, P a -> Q a) -> yields Q r.
Proof. intros A P Q [a|e|] H I; cbn in *; auto. Qed.

Lemma Forall_firstn' : forall (P : Z -> Prop) n l, Forall P l -> Forall P (firstn n l).
Proof. intros P n l. revert n. induction l; intros [|n] H; cbn; auto. inversion H; subst. constructor; auto. Qed.
Lemma Forall_skipn' : forall (P : Z -> Prop) n l, Forall P l -> Forall P (skipn n l).
Proof. intros P n l. revert n. induction l; intros [|n] H; cbn; auto. inversion H; subst. auto. Qed.
Lemma first_attr_ok : forall l a rest, Forall is_u8 l -> first_attr h l = Some (a, rest) -> octets_ok a /\ Forall is_u8 rest.
Proof.
  intros l a rest H E. unfold first_attr in E. destruct (_ || _ || _); [discriminate|].
  remember (firstn 2 l) as x. remember (firstn 2 (skipn 2 l)) as y. injection E; intros <- <-. split.
  - unfold octets_ok. cbn [a_data]. apply Forall_firstn', (Forall_skipn' _ 4). exact H.
  - apply Forall_skipn'. exact H.
Qed.
Lemma each_attr_ok : forall n l, Forall is_u8 l -> Forall octets_ok (fst (each_attr h n l)).
Proof.
  induction n as [|n IH]; intros l H; cbn [each_attr]; [constructor|].
  destruct (first_attr h l) as [(a, rest)|] eqn:E; [|constructor].
  destruct (first_attr_ok _ _ _ H E) as (H1 & H2). specialize (IH rest H2). destruct (each_attr h n rest). cbn [fst] in *. constructor; assumption.
Qed.
Lemma attributes_ok : forall l, Forall is_u8 l -> Forall octets_ok (fst (attributes h l)).
Proof. intros. apply each_attr_ok. assumption. Qed.

(** What the tables contain was validated *)
Definition sound (p : policy) (t : table) : Prop := forall i a, t i = Some a -> octets_ok a /\ validate_k h (p i) a = true.
Lemma parse_each_sound : forall maxtype p l t, Forall octets_ok l -> sound p t -> yields (sound p) (parse_each_k h maxtype p l t).
Proof.
  induction l as [|a l IH]; intros t H S; cbn [parse_each_k]; [exact S|]. inversion H; subst.
  destruct (_ || _); [destruct (h_strict h); [exact Logic.I|apply IH; assumption]|].
  destruct (validate_k h (p (nla_type a)) a) eqn:V; [|exact Logic.I].
  apply IH; [assumption|]. intros i x E. unfold tset in E. destruct (i =? nla_type a) eqn:C; [|apply S; exact E].
  injection E; intros <-. assert (i = nla_type a) by lia. subst i. split; assumption.
Qed.
Lemma nested_sound : forall maxtype a p, octets_ok a -> yields (sound p) (nla_parse_nested_k h maxtype a p).
Proof.
  intros maxtype a p H. unfold nla_parse_nested_k, nla_parse_k. destruct (_ && _); [exact Logic.I|].
  pose proof (attributes_ok _ H) as A. destruct (attributes h (a_data a)) as (l, left). cbn [fst] in A.
  apply yields_bind with (P := sound p); [apply parse_each_sound; [exact A|intros i x E; discriminate]|].
  intros t S. destruct left; [exact S|]. destruct (h_strict h); [exact Logic.I|exact S].
Qed.
Lemma get_yields : forall n a, octets_ok a -> (n <= length (a_data a))%nat -> yields (fun v => 0 <= v < 256 ^ Z.of_nat n) (nla_get h n a).
Proof.
  intros n a H L. unfold nla_get. replace (length (a_data a) <? n)%nat with false by (symmetry; apply Nat.ltb_ge; exact L). cbn [yields].
  pose proof (host_number_bound (firstn n (a_data a)) (Forall_firstn' _ _ _ H)) as B. unfold zlen in B. rewrite firstn_length_le in B by exact L. exact B.
Qed.
Lemma get_addr_yields : forall n a, (forall x, a = Some x -> octets_ok x) -> yields (fun v => 0 <= v < 256 ^ Z.of_nat n) (jnla_get_addr n a).
Proof.
  intros n [a|] H; [|exact Logic.I]. specialize (H a eq_refl). unfold jnla_get_addr, validate_null, validate_len, rbind.
  destruct (length (a_data a) <? n)%nat eqn:E; [exact Logic.I|]. cbn [yields].
  pose proof (be_of_bound (firstn n (a_data a)) (Forall_firstn' _ _ _ H)) as B. rewrite firstn_length_le in B by (apply Nat.ltb_ge; exact E). exact B.
Qed.
Lemma sound_u8 : forall p t i a, sound p t -> p i = PU8 -> t i = Some a -> octets_ok a /\ (1 <= length (a_data a))%nat.
Proof. intros p t i a S P E. destruct (S i a E) as (H & V). split; [exact H|]. rewrite P in V. cbn [validate_k] in V. unfold zlen in V. destruct (h_strict h); lia. Qed.
Lemma sound_u16 : forall p t i a, sound p t -> p i = PU16 -> t i = Some a -> octets_ok a /\ (2 <= length (a_data a))%nat.
Proof. intros p t i a S P E. destruct (S i a E) as (H & V). split; [exact H|]. rewrite P in V. cbn [validate_k] in V. unfold zlen in V. destruct (h_strict h); lia. Qed.
Lemma sound_u32 : forall p t i a, sound p t -> p i = PU32 -> t i = Some a -> octets_ok a /\ (4 <= length (a_data a))%nat.
Proof. intros p t i a S P E. destruct (S i a E) as (H & V). split; [exact H|]. rewrite P in V. cbn [validate_k] in V. unfold zlen in V. destruct (h_strict h); lia. Qed.
Lemma sound_octets : forall p t i, sound p t -> forall x, t i = Some x -> octets_ok x.
Proof. intros p t i S x E. apply (S i x E). Qed.
Lemma y_u8 : forall p t i, sound p t -> p i = PU8 -> yields is_u8 (jnla_get_u8 h (t i)).
Proof.
  intros p t i S P. unfold jnla_get_u8, validate_null. destruct (t i) as [a|] eqn:E; [|exact Logic.I]. cbn [rbind].
  destruct (sound_u8 p t i a S P E) as (H & L). apply (get_yields 1 a H L).
Qed.
Lemma y_u16 : forall p t i, sound p t -> p i = PU16 -> yields is_u16 (jnla_get_u16 h (t i)).
Proof.
  intros p t i S P. unfold jnla_get_u16, validate_null. destruct (t i) as [a|] eqn:E; [|exact Logic.I]. cbn [rbind].
  destruct (sound_u16 p t i a S P E) as (H & L). apply (get_yields 2 a H L).
Qed.
Lemma y_zero32 : forall p t i, sound p t -> p i = PU32 -> yields is_u32 (get_or_zero h 4 (t i)).
Proof.
  intros p t i S P. unfold get_or_zero. destruct (t i) as [a|] eqn:E; [|cbn; unfold is_u32; lia].
  destruct (sound_u32 p t i a S P E) as (H & L). apply (get_yields 4 a H L).
Qed.
Lemma y_zero8 : forall p t i, sound p t -> p i = PU8 -> yields is_u8 (get_or_zero h 1 (t i)).
Proof.
  intros p t i S P. unfold get_or_zero. destruct (t i) as [a|] eqn:E; [|cbn; unfold is_u8; lia].
  destruct (sound_u8 p t i a S P E) as (H & L). apply (get_yields 1 a H L).
Qed.
Definition some_ok (a : option attr) : Prop := forall x, a = Some x -> octets_ok x.
Lemma y_prefix6 : forall a, some_ok a -> yields (fun o => forall p, o = Some p -> wt_prefix6 p) (jnla_get_prefix6_optional h a).
Proof.
  intros [a|] H; [|exact Logic.I]. unfold jnla_get_prefix6_optional, validate_null. cbn [rbind].
  apply yields_bind with (P := sound prefix6_policy); [apply nested_sound, H; reflexivity|]. intros t S.
  destruct (t JNLAP_LEN) as [l|] eqn:L; [|exact Logic.I]. destruct (t JNLAP_ADDR) as [ad|] eqn:D; [|cbn; discriminate].
  destruct (sound_u8 _ t JNLAP_LEN l S eq_refl L) as (O & N).
  apply yields_bind with (P := is_u8); [apply (get_yields 1 l O N)|]. intros len Hl.
  apply yields_bind with (P := is_u128); [apply (get_addr_yields 16); intros x E; injection E; intros <-; apply (S _ _ D)|]. intros ad' Ha.
  cbn. intros p E. injection E; intros <-. split; assumption.
Qed.
Lemma y_prefix4 : forall a, some_ok a -> yields (fun o => forall p, o = Some p -> wt_prefix4 p) (jnla_get_prefix4_optional h a).
Proof.
  intros [a|] H; [|exact Logic.I]. unfold jnla_get_prefix4_optional, validate_null. cbn [rbind].
  apply yields_bind with (P := sound prefix4_policy); [apply nested_sound, H; reflexivity|]. intros t S.
  destruct (t JNLAP_LEN) as [l|] eqn:L; [|exact Logic.I]. destruct (t JNLAP_ADDR) as [ad|] eqn:D; [|cbn; discriminate].
  destruct (sound_u8 _ t JNLAP_LEN l S eq_refl L) as (O & N).
  apply yields_bind with (P := is_u8); [apply (get_yields 1 l O N)|]. intros len Hl.
  apply yields_bind with (P := is_u32); [apply (get_addr_yields 4); intros x E; injection E; intros <-; apply (S _ _ D)|]. intros ad' Ha.
  cbn. intros p E. injection E; intros <-. split; assumption.
Qed.
Lemma y_mandatory6 : forall a, some_ok a -> yields wt_prefix6 (jnla_get_prefix6 h a).
Proof. intros a H. eapply yields_bind; [apply y_prefix6; exact H|]. intros [p|] Hp; [apply Hp; reflexivity|exact Logic.I]. Qed.
Lemma y_mandatory4 : forall a, some_ok a -> yields wt_prefix4 (jnla_get_prefix4 h a).
Proof. intros a H. eapply yields_bind; [apply y_prefix4; exact H|]. intros [p|] Hp; [apply Hp; reflexivity|exact Logic.I]. Qed.
Lemma y_taddr6 : forall a, some_ok a -> yields fit_taddr6 (jnla_get_taddr6 h a).
Proof.
  intros [a|] H; [|exact Logic.I]. unfold jnla_get_taddr6, validate_null. cbn [rbind].
  apply yields_bind with (P := sound taddr6_policy); [apply nested_sound, H; reflexivity|]. intros t S.
  apply yields_bind with (P := is_u128); [apply (get_addr_yields 16); apply (sound_octets _ _ _ S)|]. intros l3 H3.
  apply yields_bind with (P := is_u16); [apply (y_u16 taddr6_policy t JNLAT_PORT S eq_refl)|]. intros l4 H4. split; assumption.
Qed.
Lemma y_taddr4 : forall a, some_ok a -> yields fit_taddr4 (jnla_get_taddr4 h a).
Proof.
  intros [a|] H; [|exact Logic.I]. unfold jnla_get_taddr4, validate_null. cbn [rbind].
  apply yields_bind with (P := sound taddr4_policy); [apply nested_sound, H; reflexivity|]. intros t S.
  apply yields_bind with (P := is_u32); [apply (get_addr_yields 4); apply (sound_octets _ _ _ S)|]. intros l3 H3.
  apply yields_bind with (P := is_u16); [apply (y_u16 taddr4_policy t JNLAT_PORT S eq_refl)|]. intros l4 H4. split; assumption.
Qed.
Lemma y_eam : forall a, some_ok a -> yields fit_entry (jnla_get_eam h a).
Proof.
  intros [a|] H; [|exact Logic.I]. unfold jnla_get_eam, validate_null. cbn [rbind].
  apply yields_bind with (P := sound eam_policy); [apply nested_sound, H; reflexivity|]. intros t S.
  apply yields_bind with (P := wt_prefix6); [apply y_mandatory6; exact (sound_octets _ _ _ S)|]. intros p6 H6.
  apply yields_bind with (P := wt_prefix4); [apply y_mandatory4; exact (sound_octets _ _ _ S)|]. intros p4 H4. split; assumption.
Qed.
Lemma y_pool4 : forall a, some_ok a -> yields fit_entry (jnla_get_pool4 h a).
Proof.
  intros [a|] H; [|exact Logic.I]. unfold jnla_get_pool4, validate_null. cbn [rbind].
  apply yields_bind with (P := sound pool4_policy); [apply nested_sound, H; reflexivity|]. intros t S.
  eapply yields_bind; [apply (y_zero32 pool4_policy t JNLAP4_MARK S eq_refl)|]. intros mark Hm.
  eapply yields_bind; [apply (y_zero32 pool4_policy t JNLAP4_ITERATIONS S eq_refl)|]. intros it Hi.
  eapply yields_bind; [apply (y_zero8 pool4_policy t JNLAP4_FLAGS S eq_refl)|]. intros fl Hf.
  eapply yields_bind; [apply (y_u8 pool4_policy t JNLAP4_PROTO S eq_refl)|]. intros pr Hp.
  eapply yields_bind; [apply y_mandatory4; exact (sound_octets _ _ _ S)|]. intros p4 H4.
  eapply yields_bind; [apply (y_u16 pool4_policy t JNLAP4_PORT_MIN S eq_refl)|]. intros mn Hmn.
  eapply yields_bind; [apply (y_u16 pool4_policy t JNLAP4_PORT_MAX S eq_refl)|]. intros mx Hmx.
  cbn. tauto.
Qed.
Lemma y_bib : forall a, some_ok a -> yields fit_entry (jnla_get_bib h a).
Proof.
  intros [a|] H; [|exact Logic.I]. unfold jnla_get_bib, validate_null. cbn [rbind].
  apply yields_bind with (P := sound bib_policy); [apply nested_sound, H; reflexivity|]. intros t S.
  eapply yields_bind; [apply y_taddr6; exact (sound_octets _ _ _ S)|]. intros a6 H6.
  eapply yields_bind; [apply y_taddr4; exact (sound_octets _ _ _ S)|]. intros a4 H4.
  eapply yields_bind; [apply (y_u8 bib_policy t JNLAB_PROTO S eq_refl)|]. intros pr Hp.
  eapply yields_bind; [apply (y_zero8 bib_policy t JNLAB_STATIC S eq_refl)|]. intros st Hs.
  cbn. tauto.
Qed.
(** Lists of plateaus: every attribute was validated if unknown types are rejected *)
Lemma parse_each_all : forall maxtype p l t t', h_strict h = true -> parse_each_k h maxtype p l t = Got t' ->
  Forall (fun a => 1 <= nla_type a <= maxtype /\ validate_k h (p (nla_type a)) a = true) l.
Proof.
  induction l as [|a l IH]; intros t t' S E; [constructor|]. cbn [parse_each_k] in E.
  assert (0 <= nla_type a) by (unfold nla_type, NLA_TYPE_MASK; change 16383 with (Z.ones 14); rewrite Z.land_ones by lia; apply Z.mod_pos_bound; lia).
  destruct ((nla_type a =? 0) || (maxtype <? nla_type a)) eqn:C; [rewrite S in E; discriminate|].
  destruct (validate_k h (p (nla_type a)) a) eqn:V; [|discriminate]. constructor; [split; [lia|exact V]|eapply IH; eassumption].
Qed.
Lemma y_each_plateau : forall l c, Forall octets_ok l -> Forall (fun a => (2 <= length (a_data a))%nat) l ->
  yields (fun r => Forall is_u16 r /\ c + zlen r <= Z.max c 64) (get_each_plateau h c l).
Proof.
  induction l as [|a l IH]; intros c O L; cbn [get_each_plateau].
  - cbn. split; [constructor|]. unfold zlen. cbn. lia.
  - inversion O; subst. inversion L; subst. destruct (64 <=? c) eqn:C; [exact Logic.I|].
    eapply yields_bind; [apply (get_yields 2); assumption|]. intros v Hv.
    eapply yields_bind; [apply (IH (c + 1)); assumption|]. intros r (Hr & Hl). cbn [yields]. split; [constructor; assumption|].
    unfold zlen in *. cbn [length]. lia.
Qed.
Lemma y_plateaus : forall a, h_strict h = true -> some_ok a -> yields (fun l => Forall is_u16 l /\ zlen l <= 64) (jnla_get_plateau_values h a).
Proof.
  intros [a|] S H; [|exact Logic.I]. specialize (H a eq_refl). unfold jnla_get_plateau_values, validate_null, nla_validate_k, nla_parse_k. cbn [rbind].
  pose proof (attributes_ok _ H) as O. destruct (attributes h (a_data a)) as (l, left). cbn [fst] in *.
  destruct (parse_each_k h JNLAL_MAX plateau_list_policy l empty) as [t|e|] eqn:E; cbn [rbind]; [|exact Logic.I|].
  2: { pose proof (parse_each_sound JNLAL_MAX plateau_list_policy l empty O) as Y. rewrite E in Y. apply Y. intros i x D; discriminate. }
  destruct left; [|rewrite S; exact Logic.I]. cbn [rbind]. pose proof (parse_each_all _ _ _ _ _ S E) as A.
  eapply yields_imp; [apply (y_each_plateau l 0 O)|intros r (R1 & R2); split; [exact R1|lia]].
  clear - A S. induction A as [|x l (T & V) A IH]; constructor; [|exact IH].
  change JNLAL_MAX with 1 in T. assert (E : nla_type x = 1) by lia. rewrite E in V.
  unfold plateau_list_policy, assoc, JNLAL_ENTRY, validate_k in V. cbn [Z.eqb Pos.eqb] in V. rewrite S in V. unfold zlen in V. lia.
Qed.

(** The client reads prefixes and plateaus *)
Definition sound_u (p : policy) (t : table) : Prop := forall i a, t i = Some a -> octets_ok a /\ validate_u (p i) a = true.
Lemma parse_each_sound_u : forall maxtype p l t, Forall octets_ok l -> sound_u p t -> yields (sound_u p) (parse_each_u maxtype p l t).
Proof.
  induction l as [|a l IH]; intros t H S; cbn [parse_each_u]; [exact S|]. inversion H; subst.
  destruct (maxtype <? nla_type a); [apply IH; assumption|].
  destruct (validate_u (p (nla_type a)) a) eqn:V; [|exact Logic.I].
  apply IH; [assumption|]. intros i x E. unfold tset in E. destruct (i =? nla_type a) eqn:C; [|apply S; exact E].
  injection E; intros <-. assert (i = nla_type a) by lia. subst i. split; assumption.
Qed.
Lemma parse_u_sound : forall maxtype p d, Forall is_u8 d -> yields (sound_u p) (nla_parse_u h maxtype p d).
Proof. intros. apply parse_each_sound_u; [apply attributes_ok; assumption|intros i x E; discriminate]. Qed.
Lemma addr_u_yields : forall p t i n a, sound_u p t -> p i = PAddr (Z.of_nat n) -> t i = Some a -> yields (fun v => 0 <= v < 256 ^ Z.of_nat n) (nla_get_addr n (Some a)).
Proof.
  intros p t i n a S P E. destruct (S i a E) as (H & V). rewrite P in V. cbn [validate_u] in V. unfold zlen in V. assert (L : length (a_data a) = n) by lia.
  unfold nla_get_addr. rewrite L, Nat.ltb_irrefl. cbn [yields].
  pose proof (be_of_bound (firstn n (a_data a)) (Forall_firstn' _ _ _ H)) as B. rewrite firstn_length_le in B by lia. exact B.
Qed.
Lemma len_u_yields : forall p t i a, sound_u p t -> p i = PU8 -> t i = Some a -> yields is_u8 (nla_get h 1 a).
Proof.
  intros p t i a S P E. destruct (S i a E) as (H & V). rewrite P in V. cbn [validate_u] in V. unfold zlen in V. apply (get_yields 1 a H). lia.
Qed.
Lemma yu_prefix6 : forall a, octets_ok a -> yields wt_prefix6 (nla_get_prefix6 h (Some a)).
Proof.
  intros a H. unfold nla_get_prefix6. apply yields_bind with (P := sound_u prefix6_policy); [apply parse_u_sound; exact H|]. intros t S.
  destruct (t JNLAP_ADDR) as [ad|] eqn:D; [|exact Logic.I]. destruct (t JNLAP_LEN) as [l|] eqn:L; [|exact Logic.I].
  eapply yields_bind; [apply (addr_u_yields _ t JNLAP_ADDR 16 ad S eq_refl D)|]. intros x Hx.
  eapply yields_bind; [apply (len_u_yields _ t JNLAP_LEN l S eq_refl L)|]. intros y Hy. split; assumption.
Qed.
Lemma yu_prefix4 : forall a, octets_ok a -> yields wt_prefix4 (nla_get_prefix4 h (Some a)).
Proof.
  intros a H. unfold nla_get_prefix4. apply yields_bind with (P := sound_u prefix4_policy); [apply parse_u_sound; exact H|]. intros t S.
  destruct (t JNLAP_ADDR) as [ad|] eqn:D; [|exact Logic.I]. destruct (t JNLAP_LEN) as [l|] eqn:L; [|exact Logic.I].
  eapply yields_bind; [apply (addr_u_yields _ t JNLAP_ADDR 4 ad S eq_refl D)|]. intros x Hx.
  eapply yields_bind; [apply (len_u_yields _ t JNLAP_LEN l S eq_refl L)|]. intros y Hy. split; assumption.
Qed.
Lemma parse_each_all_u : forall maxtype p l t t', parse_each_u maxtype p l t = Got t' ->
  Forall (fun a => nla_type a <= maxtype -> validate_u (p (nla_type a)) a = true) l.
Proof.
  induction l as [|a l IH]; intros t t' E; [constructor|]. cbn [parse_each_u] in E.
  destruct (maxtype <? nla_type a) eqn:C; [constructor; [lia|eapply IH; eassumption]|].
  destruct (validate_u (p (nla_type a)) a) eqn:V; [|discriminate]. constructor; [intros _; exact V|eapply IH; eassumption].
Qed.
Lemma yu_plateaus : forall a, octets_ok a -> yields (fun l => Forall is_u16 l /\ zlen l <= 64) (nla_get_plateaus h a).
Proof.
  intros a H. unfold nla_get_plateaus, jnla_validate_list, nla_parse_u.
  pose proof (attributes_ok _ H) as O. set (l := fst (attributes h (a_data a))) in *.
  pose proof (parse_each_sound_u JNLAL_MAX plateau_list_policy l empty O) as Y.
  destruct (parse_each_u JNLAL_MAX plateau_list_policy l empty) as [t|e|] eqn:E; cbn [rbind]; [|exact Logic.I|apply Y; intros i x D; discriminate].
  destruct (forallb (fun a0 => nla_type a0 =? JNLAL_ENTRY) l) eqn:B; [|exact Logic.I]. cbn [rbind].
  eapply yields_imp; [apply (y_each_plateau l 0 O)|intros r (R1 & R2); split; [exact R1|lia]].
  pose proof (parse_each_all_u _ _ _ _ _ E) as A. rewrite forallb_forall in B.
  apply Forall_forall. intros x I. rewrite Forall_forall in A. specialize (A x I). specialize (B x I). change JNLAL_ENTRY with 1 in B. assert (T : nla_type x = 1) by lia.
  rewrite T in A. change JNLAL_MAX with 1 in A. specialize (A ltac:(lia)).
  unfold plateau_list_policy, assoc, JNLAL_ENTRY, validate_u in A. cbn [Z.eqb Pos.eqb] in A. unfold zlen in A. lia.
Qed.

End Wire.
