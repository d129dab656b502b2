(** C46, C47, C66, C67: arguments and displayed values. *)
Require Import Verif.Base Verif.Addr_Model Verif.Str_Model Verif.Str_Spec Verif.Str_Proofs.
Require Import Coq.Strings.String Coq.Strings.Ascii.
Local Ltac Zify.zify_post_hook ::= Z.div_mod_to_equations.

Fixpoint chars (s : string) : list Z := match s with EmptyString => [] | String c t => Z.of_nat (nat_of_ascii c) :: chars t end.

(** ** C46 *)

(** What timeout2str() writes is a time in the documented format, it fits in the buffer, and parses back. *)
Theorem C46 : forall n, is_u32 n -> str_to_timeout (timeout2str n) = Some n /\ timeout (timeout2str n) n /\ (List.length (timeout2str n) < TIMEOUT_BUFLEN)%nat.
Proof. intros n H. destruct (timeout2str_spec n H) as [T L]. split; [|auto]. apply timeout_read; [exact T|apply H]. Qed.
Print Assumptions C46.
Example C46_nontrivial : timeout2str 7384005 = chars "2:03:04.005" /\ str_to_timeout (chars "2:03:04.005") = Some 7384005 /\ timeout2str (2 ^ 32 - 1) = chars "1193:02:47.295".
Proof. vm_compute. auto. Qed.

(** ** C47 *)

(** [r] does not start with a digit *)
Definition no_digit (r : list Z) : Prop := forall c t, r = c :: t -> ~ digit c.
Lemma stops_no_digit : forall r, stops r <-> no_digit r.
Proof.
  intros [|c t]; unfold no_digit; cbn; [split; [intros _ c t E; discriminate E|auto]|]. split; [intros H c' t' E; injection E as <- <-; intros D; apply digit_b in D; congruence|].
  intros H. specialize (H c t eq_refl). destruct (isdigit c) eqn:E; [|reflexivity]. apply digit_b in E. contradiction.
Qed.

(** What the code does: the string has to start with digits whose number is in range; what follows does not matter. *)
Theorem C47_exact : forall s n,
  (forall max, max <= 255 -> (str_to_u8 s max = Some n <-> exists d r, s = d ++ r /\ decimal d n /\ no_digit r /\ n <= max)) /\
  (str_to_u16 s = Some n <-> exists d r, s = d ++ r /\ decimal d n /\ no_digit r /\ n <= 65535) /\
  (str_to_u32 s = Some n <-> exists d r, s = d ++ r /\ decimal d n /\ no_digit r /\ n <= 4294967295).
Proof.
  assert (G : forall s n max k, max < k -> k <= ULL -> (match str_to_ull s 0 max with Some (n, _) => Some (n mod k) | None => None end = Some n <-> exists d r, s = d ++ r /\ decimal d n /\ no_digit r /\ n <= max)).
  { intros s n max k Hk Hu. split.
    - destruct (str_to_ull s 0 max) as [[m r]|] eqn:E; [|discriminate]. intros H. injection H as <-. apply ull_spec in E; [|lia]. destruct E as (d & -> & D & Hr & Hm). pose proof (decimal_pos _ _ D). rewrite Z.mod_small by lia. exists d, r. rewrite <- stops_no_digit. auto.
    - intros (d & r & -> & D & Hr & Hn). pose proof (decimal_pos _ _ D). rewrite (proj2 (ull_spec (d ++ r) max n r ltac:(lia))); [rewrite Z.mod_small by lia; reflexivity|]. exists d. rewrite stops_no_digit. auto. }
  intros s n. split; [|split]; [intros max Hm|..]; apply G; unfold ULL; lia.
Qed.
Print Assumptions C47_exact.

(** The property, for strings that contain nothing but digits. Missing: that other strings
    are rejected; they are not if they start with digits. *)
Theorem C47_partial : forall s n, Forall digit s ->
  (forall max, max <= 255 -> (str_to_u8 s max = Some n <-> decimal s n /\ n <= max)) /\
  (str_to_u16 s = Some n <-> decimal s n /\ n <= 65535) /\ (str_to_u32 s = Some n <-> decimal s n /\ n <= 4294967295).
Proof.
  intros s n F. assert (G : forall max, (exists d r, s = d ++ r /\ decimal d n /\ no_digit r /\ n <= max) <-> (decimal s n /\ n <= max)).
  { intros max. split.
    - intros (d & r & -> & D & Hr & Hn). apply Forall_app in F as [_ F]. destruct r as [|c t]; [rewrite app_nil_r; auto|]. exfalso. apply (Hr c t eq_refl). exact (Forall_inv F).
    - intros [D Hn]. exists s, []. rewrite app_nil_r. split; [reflexivity|]. split; [exact D|]. split; [intros c t E; discriminate E|exact Hn]. }
  destruct (C47_exact s n) as (A & B & C). split; [intros max Hm; rewrite (A max Hm); apply G|]. split; [rewrite B|rewrite C]; apply G.
Qed.
Print Assumptions C47_partial.
Example C47_nontrivial : Forall digit (chars "0065535") /\ str_to_u16 (chars "0065535") = Some 65535 /\ str_to_u16 (chars "65536") = None /\ str_to_u32 (chars "18446744073709551616") = None /\ str_to_u8 (chars "33") 32 = None.
Proof. split; [repeat constructor; discriminate|vm_compute; auto]. Qed.

(** src/usr/util/str_utils.c:28: the regular expression has no end. A typo is not noticed: "--mark 0x10" sets mark 0; "1O0" becomes 1. *)
Theorem C47_refuted : exists s n, str_to_u32 s = Some n /\ str_to_u16 s = Some n /\ str_to_u8 s 255 = Some n /\ ~ exists m, decimal s m.
Proof. exists (chars "0x10"), 0. repeat (split; [vm_compute; reflexivity|]). intros [m (_ & F & _)]. apply Forall_inv_tail, Forall_inv in F. vm_compute in F. destruct F as [_ F]. apply F. reflexivity. Qed.
Print Assumptions C47_refuted.

(** Timeouts in the documented format are read exactly, if they fit in 32 bits of milliseconds. Missing: the rejection of everything else. *)
Theorem C47_timeout_partial : forall s n, timeout s n -> n <= 4294967295 -> str_to_timeout s = Some n.
Proof. intros s n T H. apply timeout_read; [exact T|lia]. Qed.
Print Assumptions C47_timeout_partial.
Example C47_timeout_nontrivial : timeout (chars "01:00:02.500") 3602500 /\ str_to_timeout (chars "01:00:02.500") = Some 3602500 /\ str_to_timeout (chars "1:5x") = None.
Proof.
  split; [|vm_compute; auto]. assert (D : forall s n, forallb isdigit s = true -> s <> [] -> value s = n -> decimal s n).
  { intros s n F H E. split; [exact H|]. split; [|exact E]. apply Forall_forall. intros c Hc. apply digit_b. rewrite forallb_forall in F. auto. }
  apply (timeout_ms (chars "01:00:02") (chars "500") 3602 500); [|apply D; [reflexivity|discriminate|reflexivity]|reflexivity].
  apply (clock_hms (chars "01") (chars "00") (chars "02") 1 0 2); apply D; try reflexivity; discriminate.
Qed.

(** Neither is the value checked to fit (src/usr/util/str_utils.c:187): 49 days, 17 hours and some become 2 hours... *)
Theorem C47_timeout_wraps_refuted : exists s n m, timeout s n /\ str_to_timeout s = Some m /\ m <> n /\ s = chars "4302167.296" /\ m = 7200000.
Proof.
  exists (chars "4302167.296"), 4302167296, 7200000. split; [|split; [vm_compute; reflexivity|split; [discriminate|auto]]].
  assert (D : forall s n, forallb isdigit s = true -> s <> [] -> value s = n -> decimal s n).
  { intros s n F H E. split; [exact H|]. split; [|exact E]. apply Forall_forall. intros c Hc. apply digit_b. rewrite forallb_forall in F. auto. }
  apply (timeout_ms (chars "4302167") (chars "296") 4302167 296); [apply clock_s|..]; try apply D; try reflexivity; discriminate.
Qed.
Print Assumptions C47_timeout_wraps_refuted.
(** ...nor is its format: the empty string is 0, there can be signs, and the milliseconds can be more than 999. *)
Theorem C47_timeout_refuted : str_to_timeout (chars "") = Some 0 /\ str_to_timeout (chars "5:-60") = Some 240000 /\ str_to_timeout (chars "1.123456") = Some 124456 /\
  forall s, In s [chars ""; chars "5:-60"; chars "1.123456"] -> ~ exists n, timeout s n.
Proof.
  repeat (split; [vm_compute; reflexivity|]). intros s Hs [n T]. cbn [In] in Hs. destruct Hs as [<-|[<-|[<-|[]]]].
  - apply (proj1 (timeout_chars _ _ T)). reflexivity.
  - pose proof (proj2 (timeout_chars _ _ T)) as F. do 2 apply Forall_inv_tail in F. apply Forall_inv in F. unfold digit in F. cbn in F. lia.
  - assert (K : forall s x, clock s x -> ~ In 46 s).
    { intros s x H Hi. assert (Dn : forall s y, decimal s y -> ~ In 46 s) by (intros ? ? D; apply (digits_no 46); [unfold digit; lia|apply D]).
      destruct H; repeat (apply in_app_iff in Hi as [Hi|Hi] || (cbn in Hi; destruct Hi as [Hi|[]]; discriminate Hi)); match goal with D : decimal ?s _, Hi : In 46 ?s |- _ => exact (Dn _ _ D Hi) end. }
    inversion T as [s' x C E|s' f x y C D L E].
    + apply (K _ _ C). vm_compute. auto.
    + assert (E2 : s' = chars "1").
      { destruct s' as [|a s']; [injection E as Ea; discriminate Ea|]. destruct s' as [|b s']; [injection E as -> _; reflexivity|]. exfalso. injection E as _ Eb _. subst b. apply (K _ _ C). vm_compute. auto. }
      subst s'. injection E as ->. discriminate L.
Qed.
Print Assumptions C47_timeout_refuted.

(** ** C66: values as displayed *)

(** What is trusted of inet_pton() and inet_ntop(): texts of addresses are not
    empty, not too long (INET_ADDRSTRLEN, INET6_ADDRSTRLEN), contain no slash nor hash, and printing is undone by parsing. *)
Record inet_ok (N : inet) : Prop := {
  i4_text : forall s a, pton4 N s = Some a -> s <> [] /\ (List.length s <= 15)%nat /\ ~ In 47 s /\ ~ In 35 s;
  i6_text : forall s a, pton6 N s = Some a -> s <> [] /\ (List.length s <= 45)%nat /\ ~ In 47 s /\ ~ In 35 s;
  i4_back : forall a, is_u32 a -> pton4 N (ntop4 N a) = Some a;
  i6_back : forall a, is_u128 a -> pton6 N (ntop6 N a) = Some a;
}.

Section Inet.
Context (N : inet) (H : inet_ok N).

(** ** C67: addresses in arguments *)

(** Prefixes and transport addresses are read exactly, if the lengths and ports have no more digits
    than they need. Missing: the rejection of everything else. *)
Theorem C67_partial :
  (forall s a l, addr_prefix (fun s a => pton4 N s = Some a) 32 s a l -> (List.length s <= 18)%nat -> str_to_prefix4 N s = Some (P4 a l)) /\
  (forall s a l, addr_prefix (fun s a => pton6 N s = Some a) 128 s a l -> (List.length s <= 49)%nat -> str_to_prefix6 N s = Some (P6 a l)) /\
  (forall s a p, taddr (fun s a => pton4 N s = Some a) s a p -> (List.length s <= 21)%nat -> str_to_addr4_port N s = Some (a, p)) /\
  (forall s a p, taddr (fun s a => pton6 N s = Some a) s a p -> (List.length s <= 51)%nat -> str_to_addr6_port N s = Some (a, p)) /\
  (forall s m n, ports s m n -> str_to_port_range s = Some (m, n)) /\
  (forall s l, numbers s l -> (List.length l <= 64)%nat -> str_to_plateaus_array s = Some l).
Proof.
  assert (P : forall pton ml max, max < 256 -> (forall s a, pton s = Some a -> s <> [] /\ ~ In 47 s) -> forall s a l, addr_prefix (fun s a => pton s = Some a) max s a l -> Z.of_nat (List.length s) < ml -> str_to_prefix pton ml max s = Some (a, l)).
  { intros pton ml max Hm K s a l [s' a' E|s' l' a' n E D Hn] L; unfold str_to_prefix; destruct (K _ _ E) as (K1 & K2); (replace (_ <? _) with false by lia).
    - rewrite strtok_one by assumption. rewrite E. reflexivity.
    - rewrite strtok_app by assumption. rewrite E, strtok_one by (try apply (digits_no 47); try apply D; unfold digit; lia). rewrite (u8_decimal _ _ _ D Hn Hm). reflexivity. }
  assert (T : forall pton ml, (forall s a, pton s = Some a -> s <> [] /\ ~ In 35 s) -> forall s a p, taddr (fun s a => pton s = Some a) s a p -> Z.of_nat (List.length s) < ml -> str_to_addr_port pton ml s = Some (a, p)).
  { intros pton ml K s a p [s' p' a' n E D Hn] L; unfold str_to_addr_port; destruct (K _ _ E) as (K1 & K2). replace (_ <? _) with false by lia.
    rewrite strtok_app by assumption. rewrite E, strtok_one by (try apply (digits_no 35); try apply D; unfold digit; lia). rewrite (u16_decimal _ _ D Hn). reflexivity. }
  assert (K4 : forall s a, pton4 N s = Some a -> s <> [] /\ ~ In 47 s) by (intros s a E; destruct (i4_text N H s a E) as (? & ? & ? & ?); auto).
  assert (K6 : forall s a, pton6 N s = Some a -> s <> [] /\ ~ In 47 s) by (intros s a E; destruct (i6_text N H s a E) as (? & ? & ? & ?); auto).
  assert (T4 : forall s a, pton4 N s = Some a -> s <> [] /\ ~ In 35 s) by (intros s a E; destruct (i4_text N H s a E) as (? & ? & ? & ?); auto).
  assert (T6 : forall s a, pton6 N s = Some a -> s <> [] /\ ~ In 35 s) by (intros s a E; destruct (i6_text N H s a E) as (? & ? & ? & ?); auto).
  repeat apply conj.
  - intros s a l Hp L. unfold str_to_prefix4. rewrite (P _ (16 + 1 + 2) 32 ltac:(lia) K4 _ _ _ Hp) by lia. reflexivity.
  - intros s a l Hp L. unfold str_to_prefix6. rewrite (P _ (46 + 1 + 3) 128 ltac:(lia) K6 _ _ _ Hp) by lia. reflexivity.
  - intros s a p Hp L. apply (T _ _ T4 _ _ _ Hp). lia.
  - intros s a p Hp L. apply (T _ _ T6 _ _ _ Hp). lia.
  - intros s m n [s' k D Hk|a b k j D1 Hk D2 Hj]; unfold str_to_port_range.
    + rewrite (proj2 (ull_spec s' 65535 k [] ltac:(reflexivity))); [reflexivity|]. exists s'. rewrite app_nil_r. repeat (split; [auto; exact Logic.I|]). exact Hk.
    + rewrite (proj2 (ull_spec (a ++ [45] ++ b) 65535 k ([45] ++ b) ltac:(reflexivity))) by (exists a; repeat (split; [auto; reflexivity|]); exact Hk). cbn [app].
      rewrite (proj2 (ull_spec b 65535 j [] ltac:(reflexivity))); [reflexivity|]. exists b. rewrite app_nil_r. repeat (split; [auto; exact Logic.I|]). exact Hj.
  - intros s l Hl L. destruct (plateaus_read s l Hl) as (E1 & E2 & E3). unfold str_to_plateaus_array. rewrite E2, E3. destruct l as [|n l]; [destruct (strtok 44 s); [contradiction|discriminate E2]|].
    replace (_ =? _)%nat with false by (cbn [List.length]; lia). replace (_ <? _)%nat with false by (cbn [List.length] in *; lia). reflexivity.
Qed.

(** What --csv displays can be given as an argument, and has the same value. *)
Theorem C66_partial :
  (forall b, str_to_bool (print_bool b) = Some b) /\
  (forall n, is_u8 n -> str_to_u8 (print_u n) 255 = Some n) /\
  (forall n, is_u32 n -> str_to_u32 (print_u n) = Some n) /\
  (forall n, is_u32 n -> str_to_timeout (timeout2str n) = Some n) /\
  (forall l, Forall is_u16 l -> (1 <= List.length l <= 64)%nat -> str_to_plateaus_array (print_list l) = Some l) /\
  (forall a l, is_u32 a -> 0 <= l <= 32 -> str2nl_prefix4 N (print_prefix4 N (Some (P4 a l))) = Some (Some (P4 a l))) /\
  (forall a l, is_u128 a -> 0 <= l <= 128 -> str2nl_prefix6 N (print_prefix6 N (Some (P6 a l))) = Some (Some (P6 a l))) /\
  (forall m, 0 <= m <= 2 -> str2nl_hairpin_mode (print_hairpin_mode m) = Some m).
Proof.
  destruct C67_partial as (A4 & A6 & _ & _ & _ & Apl). repeat apply conj.
  - intros [|]; vm_compute; reflexivity.
  - intros n Hn. unfold is_u8 in Hn. destruct (print_u_spec n) as (D & _); [lia|]. apply u8_decimal; [exact D|lia|lia].
  - intros n Hn. unfold is_u32 in Hn. destruct (print_u_spec n) as (D & _); [lia|]. apply u32_decimal; [exact D|lia].
  - intros n Hn. apply C46. exact Hn.
  - intros l F L. apply Apl; [|lia]. apply print_list_spec; [destruct l; [cbn in L; lia|discriminate]|exact F].
  - intros a l Ha Hl. pose proof (i4_back N H a Ha) as E. destruct (i4_text N H _ _ E) as (T1 & T2 & T3 & T4). destruct (print_u_spec l) as (D & _); [lia|].
    assert (L : (List.length (print_u l) <= 2)%nat) by (apply print_u_length; [cbn; lia|lia]).
    unfold str2nl_prefix4, print_prefix4. cbn [p4_addr p4_len]. unfold str_eqb. destruct (list_eq_dec Z.eq_dec _ _) as [Eq|_].
    + exfalso. assert (In 47 s_null) by (rewrite <- Eq; apply in_app_iff; right; left; reflexivity). vm_compute in H0. lia.
    + rewrite (A4 _ a l); [reflexivity|apply prefix_len; [exact E|exact D|lia]|]. rewrite !app_length. cbn [List.length]. lia.
  - intros a l Ha Hl. pose proof (i6_back N H a Ha) as E. destruct (i6_text N H _ _ E) as (T1 & T2 & T3 & T4). destruct (print_u_spec l) as (D & _); [lia|].
    assert (L : (List.length (print_u l) <= 3)%nat) by (apply print_u_length; [cbn; lia|lia]).
    unfold str2nl_prefix6, print_prefix6. cbn [p6_addr p6_len]. unfold str_eqb. destruct (list_eq_dec Z.eq_dec _ _) as [Eq|_].
    + exfalso. assert (In 47 s_null) by (rewrite <- Eq; apply in_app_iff; right; left; reflexivity). vm_compute in H0. lia.
    + rewrite (A6 _ a l); [reflexivity|apply prefix_len; [exact E|exact D|lia]|]. rewrite !app_length. cbn [List.length]. lia.
  - intros m Hm. assert (Hc : m = 0 \/ m = 1 \/ m = 2) by lia. destruct Hc as [->|[->| ->]]; vm_compute; reflexivity.
Qed.

(** A prefix that is not set is displayed as nothing, which is not accepted as an argument: that is "null". *)
Theorem C66_refuted : str2nl_prefix4 N (print_prefix4 N None) = None /\ str2nl_prefix6 N (print_prefix6 N None) = None /\ str2nl_prefix6 N s_null = Some None.
Proof. vm_compute. auto. Qed.
End Inet.
Print Assumptions C66_partial.
Print Assumptions C66_refuted.
Print Assumptions C67_partial.

(** ** Concrete cases *)

(** Addresses as single letters *)
Definition letters : inet := Inet (fun s => match s with [c] => if (97 <=? c) && (c <=? 122) then Some (c - 97) else None | _ => None end)
  (fun s => match s with [c] => if (97 <=? c) && (c <=? 122) then Some (c - 97) else None | _ => None end) (fun a => [97 + a]) (fun a => [97 + a]).
Example C67_nontrivial : str_to_prefix4 letters (chars "c/24") = Some (P4 2 24) /\ str_to_prefix6 letters (chars "c") = Some (P6 2 128) /\ str_to_addr4_port letters (chars "b#80") = Some (1, 80) /\
  str_to_port_range (chars "1024-2047") = Some (1024, 2047) /\ str_to_plateaus_array (chars "1500,1280,576") = Some [1500; 1280; 576] /\ str_to_prefix4 letters (chars "c/33") = None /\ str_to_addr4_port letters (chars "b") = None.
Proof. vm_compute. auto 10. Qed.

(** An inet that has all that is trusted of the real ones *)
Definition half (k : nat) (a : Z) : str := map (fun i => 97 + a / 256 ^ Z.of_nat i mod 256) (seq 0 k).
Fixpoint of_half (s : str) : Z := match s with [] => 0 | c :: t => (c - 97) + 256 * of_half t end.
Definition base256 (k : nat) (s : str) : option Z := if (List.length s =? k)%nat && forallb (fun c => 97 <=? c) s then Some (of_half s) else None.
Definition letters256 : inet := Inet (base256 4) (base256 16) (half 4) (half 16).
Lemma of_half_half : forall k b a, 0 <= a < 256 ^ Z.of_nat k -> of_half (map (fun i => 97 + (a * 256 ^ Z.of_nat b) / 256 ^ Z.of_nat i mod 256) (seq b k)) = a.
Proof.
  intros k. induction k as [|k IH]; intros b a Ha; [cbn in *; lia|]. rewrite Nat2Z.inj_succ, Z.pow_succ_r in Ha by lia. cbn [seq map of_half]. pose proof (Z.pow_pos_nonneg 256 (Z.of_nat b)) as Pb.
  rewrite Z.div_mul by lia. assert (Q : forall i, In i (seq (S b) k) -> a * 256 ^ Z.of_nat b / 256 ^ Z.of_nat i = (a / 256) * 256 ^ Z.of_nat (S b) / 256 ^ Z.of_nat i).
  { intros i Hi. apply in_seq in Hi. assert (Ei : Z.of_nat i = Z.of_nat b + (1 + (Z.of_nat i - Z.of_nat b - 1))) by lia. rewrite Ei. rewrite (Nat2Z.inj_succ b), !Z.pow_add_r, Z.pow_succ_r by lia.
    set (x := 256 ^ Z.of_nat b) in *. set (y := 256 ^ (Z.of_nat i - Z.of_nat b - 1)). assert (0 < y) by (apply Z.pow_pos_nonneg; lia). change (256 ^ 1) with 256.
    replace (a * x) with (a * x) by ring. rewrite (Z.mul_comm x (256 * y)). rewrite Z.div_mul_cancel_r by nia. replace (a / 256 * (256 * x)) with ((a / 256 * 256) * x) by ring. rewrite Z.div_mul_cancel_r by nia.
    rewrite <- !Z.div_div by lia. rewrite Z.div_mul by lia. reflexivity. }
  rewrite (map_ext_in _ (fun i => 97 + (a / 256 * 256 ^ Z.of_nat (S b)) / 256 ^ Z.of_nat i mod 256)) by (intros i Hi; rewrite (Q i Hi); reflexivity).
  rewrite IH; [lia|]. split; [apply Z.div_pos; lia|apply Z.div_lt_upper_bound; lia].
Qed.
Lemma half_back : forall k a, 0 <= a < 256 ^ Z.of_nat k -> base256 k (half k a) = Some a.
Proof.
  intros k a Ha. unfold base256. unfold half at 1. rewrite map_length, seq_length, Nat.eqb_refl. cbn [andb].
  replace (forallb _ _) with true by (symmetry; apply forallb_forall; intros c Hc; apply in_map_iff in Hc as (i & <- & _); pose proof (Z.mod_pos_bound (a / 256 ^ Z.of_nat i) 256); lia).
  f_equal. pose proof (of_half_half k 0 a Ha) as P. unfold half. change (Z.of_nat 0) with 0 in P. rewrite Z.pow_0_r, Z.mul_1_r in P. exact P.
Qed.
Example C66_nontrivial : inet_ok letters256 /\ print_prefix4 letters256 (Some (P4 66051 24)) = chars "dcba/24" /\ print_list [1500; 1280] = chars "1500,1280" /\ print_hairpin_mode 2 = chars "intrinsic" /\ print_bool true = chars "TRUE".
Proof.
  split; [|vm_compute; auto]. assert (T : forall k s a, (0 < k)%nat -> base256 k s = Some a -> s <> [] /\ (List.length s <= k)%nat /\ ~ In 47 s /\ ~ In 35 s).
  { intros k s a Hk E. unfold base256 in E. destruct ((List.length s =? k)%nat && forallb (fun c => 97 <=? c) s) eqn:G; [|discriminate E]. apply andb_true_iff in G as [G1 G2]. apply Nat.eqb_eq in G1. rewrite forallb_forall in G2.
    split; [destruct s; [cbn in G1; lia|discriminate]|]. split; [lia|]. split; intros Hi; apply G2 in Hi; discriminate Hi. }
  constructor; cbn [pton4 pton6 ntop4 ntop6 letters256].
  - intros s a E. destruct (T 4%nat s a ltac:(lia) E) as (? & ? & ? & ?). repeat split; auto; lia.
  - intros s a E. destruct (T 16%nat s a ltac:(lia) E) as (? & ? & ? & ?). repeat split; auto; lia.
  - intros a Ha. apply half_back. exact Ha.
  - intros a Ha. apply half_back. exact Ha.
Qed.

(** Rubbish is skipped: more separators, more fields, letters after numbers; and ranges are not checked to be in order. *)
Theorem C67_refuted : str_to_prefix4 letters (chars "//c/24bits/8") = Some (P4 2 24) /\ str_to_addr6_port letters (chars "c#80#81") = Some (2, 80) /\ str_to_port_range (chars "1-2-3") = Some (1, 2) /\
  str_to_port_range (chars "100_200") = Some (100, 100) /\ str_to_plateaus_array (chars "1500;1280") = Some [1500] /\
  (~ exists a l, addr_prefix (fun s a => pton4 letters s = Some a) 32 (chars "//c/24bits/8") a l) /\ (~ exists m n, ports (chars "100_200") m n) /\ (~ exists l, numbers (chars "1500;1280") l).
Proof.
  assert (Dn : forall s n c, decimal s n -> ~ digit c -> ~ In c s) by (intros s n c D Hc; apply digits_no; [exact Hc|apply D]).
  repeat (split; [vm_compute; reflexivity|]). split; [|split].
  - intros (a & l & Hp). inversion Hp as [s' a' E|s' l' a' n E D Hn Es]; [discriminate E|]. apply (Dn _ _ 98 D); [unfold digit; lia|].
    assert (L : List.length s' = 1%nat) by (clear - E; unfold letters in E; cbn [pton4] in E; destruct s' as [|c [|d s']]; [discriminate E|reflexivity|discriminate E]). destruct s' as [|c [|d s']]; try discriminate L. injection Es as _ El. rewrite El. vm_compute. auto 10.
  - intros (m & n & Hp). inversion Hp as [s' k D Hk Es|a' b' k j D1 Hk D2 Hj Es].
    + apply (Dn _ _ 95 D); [unfold digit; lia|vm_compute; auto 10].
    + assert (In 95 (a' ++ [45] ++ b')) as Hi by (change (a' ++ [45] ++ b') with (a' ++ 45 :: b'); unfold str in *; rewrite Es; vm_compute; auto 10). apply in_app_iff in Hi as [Hi|[Hi|Hi]]; [revert Hi; eapply Dn; [exact D1|unfold digit; lia]|discriminate Hi|revert Hi; eapply Dn; [exact D2|unfold digit; lia]].
  - intros (l & Hl). assert (K : forall s l, numbers s l -> ~ In 59 s).
    { intros s l' Hn. induction Hn as [s n D _|s n t l' D _ _ IH]; [apply (Dn _ _ 59 D); unfold digit; lia|]. intros Hi. apply in_app_iff in Hi as [Hi|[Hi|Hi]]; [revert Hi; apply (Dn _ _ 59 D); unfold digit; lia|discriminate Hi|auto]. }
    apply (K _ _ Hl). vm_compute. auto 10.
Qed.
Print Assumptions C67_refuted.
