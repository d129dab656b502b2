(** Theorems about the counters. *)
Require Import Verif.Base Verif.Addr_Model Verif.Pool4_Model Verif.Bib_Model Verif.Glob_Model Verif.Inst_Model Verif.File_Model Verif.Nla_Model Verif.Nla_Spec Verif.Nla_Proofs
  Verif.Req_Model Verif.Req_Spec Verif.Req_Proofs Verif.Lst_Model Verif.Lst_Spec Verif.Lst_Proofs Verif.Req_Properties Verif.Lst_Properties Verif.Stat_Model Verif.Stat_Spec.
Require Import String.
Open Scope list_scope.
Open Scope Z_scope.
Local Ltac Zify.zify_post_hook ::= idtac.

(** ** Counting *)

Lemma counted_fold : forall bits id x cpus m, 0 <= bits -> NoDup cpus -> forall r,
  fold_left (fun r c => (r + counted bits m x c id) mod 2 ^ bits) cpus r mod 2 ^ bits =
  (fold_left (fun r c => (r + m c id) mod 2 ^ bits) cpus r + (if in_dec Z.eq_dec (fst x) cpus then amount id x else 0)) mod 2 ^ bits.
Proof.
  intros bits id x cpus m B. assert (M : 2 ^ bits <> 0) by (apply Z.pow_nonzero; lia).
  assert (One : forall c, counted bits m x c id mod 2 ^ bits = (m c id + (if Z.eq_dec (fst x) c then amount id x else 0)) mod 2 ^ bits).
  { intros c. destruct x as [cpu x]. cbn [fst]. destruct (Z.eq_dec cpu c) as [->|D].
    - destruct x as [i|i|i n]; cbn [counted amount snd]; unfold snmp_add; rewrite Z.eqb_refl; cbn [andb]; (destruct (i =? id) eqn:E;
        [assert (i = id) by lia; subst i; rewrite Z.eqb_refl; apply Z.mod_mod; exact M|replace (id =? i) with false by lia; f_equal; lia]).
    - destruct x as [i|i|i n]; cbn [counted]; unfold snmp_add; replace (c =? cpu) with false by lia; cbn [andb]; f_equal; lia. }
  assert (Shift : forall cs d r, fold_left (fun r c => (r + m c id) mod 2 ^ bits) cs (r + d) mod 2 ^ bits = (fold_left (fun r c => (r + m c id) mod 2 ^ bits) cs r + d) mod 2 ^ bits).
  { induction cs as [|c cs IH]; intros d r; cbn [fold_left]; [reflexivity|]. rewrite <- IH.
    assert (forall a b, a mod 2 ^ bits = b mod 2 ^ bits -> fold_left (fun r c => (r + m c id) mod 2 ^ bits) cs a mod 2 ^ bits = fold_left (fun r c => (r + m c id) mod 2 ^ bits) cs b mod 2 ^ bits) as C.
    { clear -M. induction cs as [|c cs IH]; intros a b E; cbn [fold_left]; [exact E|]. apply IH. rewrite !Z.mod_mod by exact M. rewrite Z.add_mod, E, <- Z.add_mod by exact M. reflexivity. }
    apply C. rewrite Z.mod_mod by exact M. rewrite Z.add_mod_idemp_l by exact M. f_equal. lia. }
  assert (C : forall (f : Z -> Z) cs a b, a mod 2 ^ bits = b mod 2 ^ bits -> fold_left (fun r c => (r + f c) mod 2 ^ bits) cs a mod 2 ^ bits = fold_left (fun r c => (r + f c) mod 2 ^ bits) cs b mod 2 ^ bits).
  { clear -M. intros f cs. induction cs as [|c cs IH]; intros a b E; cbn [fold_left]; [exact E|]. apply IH. rewrite !Z.mod_mod by exact M. rewrite Z.add_mod, E, <- Z.add_mod by exact M. reflexivity. }
  induction cpus as [|c cs IH]; intros N r; [cbn [fold_left in_dec]; destruct (in_dec Z.eq_dec (fst x) []) as [[]|]; f_equal; lia|].
  inversion N as [|? ? Ni N']; subst. cbn [fold_left]. rewrite (IH N').
  assert (Step : (r + counted bits m x c id) mod 2 ^ bits = (r + m c id + (if Z.eq_dec (fst x) c then amount id x else 0)) mod 2 ^ bits).
  { rewrite Z.add_mod, One, <- Z.add_mod by exact M. f_equal. lia. }
  rewrite Step. rewrite Z.add_mod by exact M.
  rewrite (C (fun c => m c id) cs ((r + m c id + (if Z.eq_dec (fst x) c then amount id x else 0)) mod 2 ^ bits) ((r + m c id) mod 2 ^ bits + (if Z.eq_dec (fst x) c then amount id x else 0))) by (rewrite Z.mod_mod, Z.add_mod_idemp_l by exact M; reflexivity).
  rewrite Shift. rewrite <- Z.add_mod by exact M. f_equal.
  destruct (in_dec Z.eq_dec (fst x) cs) as [I|I]; destruct (in_dec Z.eq_dec (fst x) (c :: cs)) as [J|J]; destruct (Z.eq_dec (fst x) c) as [Q|Q]; try lia.
  - rewrite Q in I. contradiction.
  - exfalso. apply J. right. exact I.
  - exfalso. apply J. right. exact I.
  - exfalso. destruct J as [J|J]; [congruence|contradiction].
  - exfalso. apply J. left. congruence.
Qed.

(** The counter is what has been counted, whichever processors it was counted on, modulo the size of an unsigned long. *)
Lemma counted_total : forall bits cpus l id, 0 <= bits -> NoDup cpus -> Forall (fun x => In (fst x) cpus) l ->
  snmp_fold_field bits cpus (fold_left (counted bits) l jstat_alloc) id = total l id mod 2 ^ bits.
Proof.
  intros bits cpus l id B N. assert (M : 0 < 2 ^ bits) by (apply Z.pow_pos_nonneg; lia).
  assert (Small : forall m, snmp_fold_field bits cpus m id = snmp_fold_field bits cpus m id mod 2 ^ bits).
  { intros m. unfold snmp_fold_field. assert (forall r, 0 <= r < 2 ^ bits -> 0 <= fold_left (fun r c => (r + m c id) mod 2 ^ bits) cpus r < 2 ^ bits) as H.
    { induction cpus as [|c cs IH]; intros r H; [exact H|]. inversion N; subst. cbn [fold_left]. apply IH; [assumption|apply Z.mod_pos_bound; lia]. }
    symmetry. apply Z.mod_small. apply H. lia. }
  induction l as [|x l IH] using rev_ind; intros F.
  - cbn [fold_left]. change (total [] id) with 0. rewrite Z.mod_0_l by lia. unfold snmp_fold_field, jstat_alloc.
    clear - M. induction cpus as [|c cs IH]; [reflexivity|]. cbn [fold_left]. rewrite Z.mod_0_l by lia. exact IH.
  - apply Forall_app in F. destruct F as [F Fx]. inversion Fx as [|? ? Ix _]; subst. rewrite fold_left_app. cbn [fold_left]. rewrite Small. unfold snmp_fold_field at 1.
    rewrite (counted_fold bits id x cpus _ B N 0). fold (snmp_fold_field bits cpus (fold_left (counted bits) l jstat_alloc) id). rewrite (IH F).
    destruct (in_dec Z.eq_dec (fst x) cpus) as [_|Q]; [|contradiction].
    rewrite Z.add_mod_idemp_l by lia. f_equal. unfold total. rewrite map_app. cbn [map].
    assert (forall a y, fold_right Z.add 0 (a ++ [y]) = fold_right Z.add 0 a + y) as R by (intros a y; induction a as [|z a IHa]; cbn [fold_right app]; lia). rewrite R. reflexivity.
Qed.

(** ** Pages *)

Lemma range_skip : forall k n a, skipn k (range a n) = range (a + Z.of_nat k) (n - k).
Proof.
  induction k as [|k IH]; intros n a; [rewrite Nat.sub_0_r; cbn [skipn]; f_equal; lia|]. destruct n as [|n]; [reflexivity|]. cbn [range skipn Nat.sub]. rewrite IH. f_equal. lia.
Qed.
Lemma range_length : forall n a, List.length (range a n) = n.
Proof. induction n as [|n IH]; intros a; [reflexivity|]. cbn [range List.length]. rewrite IH. reflexivity. Qed.
Lemma range_in : forall n a x, In x (range a n) -> a <= x < a + Z.of_nat n.
Proof. induction n as [|n IH]; intros a x; [intros []|]. cbn [range]. intros [<-|I]; [lia|]. apply IH in I. lia. Qed.
Lemma range_first : forall k n a, (k <= n)%nat -> firstn k (range a n) = range a k.
Proof. induction k as [|k IH]; intros n a L; [reflexivity|]. destruct n as [|n]; [lia|]. cbn [range firstn]. rewrite IH by lia. reflexivity. Qed.
Lemma range_last : forall k a, range a (S k) = range a k ++ [a + Z.of_nat k].
Proof.
  induction k as [|k IH]; intros a; [cbn; rewrite Z.add_0_r; reflexivity|]. change (range a (S (S k))) with (a :: range (a + 1) (S k)). rewrite IH.
  cbn [range app]. replace (a + 1 + Z.of_nat k) with (a + Z.of_nat (S k)) by lia. reflexivity.
Qed.

(** Each counter has its name. *)
Lemma named : forall id, 1 <= id <= 83 -> metadata_at metadatas id = nth_error stat_enum (Z.to_nat (id - 1)).
Proof.
  intros id R.
  assert (A : forallb (fun i => match metadata_at metadatas i, nth_error stat_enum (Z.to_nat (i - 1)) with Some a, Some b => String.eqb a b | _, _ => false end) (map Z.of_nat (seq 1 83)) = true) by (vm_compute; reflexivity).
  rewrite forallb_forall in A. specialize (A id). destruct (metadata_at metadatas id) as [a|]; destruct (nth_error stat_enum (Z.to_nat (id - 1))) as [b|];
    (assert (J : In id (map Z.of_nat (seq 1 83))) by (apply in_map_iff; exists (Z.to_nat id); split; [lia|apply in_seq; lia])); specialize (A J); try discriminate.
  apply String.eqb_eq in A. congruence.
Qed.
Lemma unknown_id : JSTAT_UNKNOWN = 83. Proof. reflexivity. Qed.
Lemma padding_id : JSTAT_PADDING = 84. Proof. reflexivity. Qed.
Lemma max_id : JSTAT_MAX = 84. Proof. reflexivity. Qed.
Lemma count_id : Z.to_nat JSTAT_COUNT = 85%nat. Proof. reflexivity. Qed.
Lemma metadata_fits : validate_stats = true. Proof. vm_compute. reflexivity. Qed.

Section Pages.
Context (h : host) (align : bool).
Definition size : Z := if align then 16 else 12.
Definition s_enc (v : Z -> Z) (id : Z) : list Z := (if align then blk h JSTAT_PADDING [] else []) ++ blk h id (host_octets h 8 (v id)).
Lemma s_enc_size : forall v id, zlen (s_enc v id) = size.
Proof. intros v id. unfold s_enc, size. rewrite zlen_app, zlen_blk, zlen_host. destruct align; [rewrite zlen_blk|]; reflexivity. Qed.

Lemma put_one : forall cap ty v b, (align = true -> (20 + zlen b) mod 8 = 0) ->
  nla_put_u64_64bit h align cap ty (v ty) JSTAT_PADDING b = if cap <? zlen b + size then NoRoom b else Put (b ++ s_enc v ty).
Proof.
  intros cap ty v b A. unfold nla_put_u64_64bit.
  assert (Q : align && ((20 + zlen b) mod 8 =? 0) = align) by (destruct align; [rewrite A by reflexivity|]; reflexivity). rewrite Q. unfold size.
  destruct (cap <? zlen b + (if align then 16 else 12)) eqn:C; [reflexivity|]. unfold s_enc.
  assert (Z8 : forall x, zlen (blk h x (host_octets h 8 (v ty))) = 12) by (intros x; rewrite zlen_blk, zlen_host; reflexivity).
  assert (Z0 : zlen (blk h JSTAT_PADDING []) = 4) by (rewrite zlen_blk; reflexivity).
  destruct align; cbv iota in C |- *; unfold andthen.
  - rewrite (written cap _ _ b (put_writes h cap JSTAT_PADDING [])) by lia. rewrite (written cap _ _ _ (put_writes h cap ty (host_octets h 8 (v ty)))) by (rewrite zlen_app, Z0, Z8; lia).
    rewrite app_assoc. reflexivity.
  - cbn [done]. unfold done. rewrite (written cap _ _ b (put_writes h cap ty (host_octets h 8 (v ty)))) by (rewrite Z8; lia). reflexivity.
Qed.

Lemma put_page : forall cap v n fuel id b, (n <= fuel)%nat -> n = Z.to_nat (84 - id) -> zlen b <= cap -> (align = true -> (20 + zlen b) mod 8 = 0) ->
  let k := Z.to_nat ((cap - zlen b) / size) in
  put_stats h align fuel cap v id b = (b ++ flat_map (s_enc v) (firstn k (range id n)), (k <? n)%nat).
Proof.
  assert (P : 0 < size) by (unfold size; destruct align; lia).
  intros cap v. induction n as [|n IH]; intros fuel id b L En C A k.
  - assert (Q : put_stats h align fuel cap v id b = (b, false)) by (destruct fuel; [reflexivity|]; cbn [put_stats]; rewrite unknown_id; replace (id <=? 83) with false by lia; reflexivity).
    rewrite Q. cbn [range]. rewrite firstn_nil. cbn [flat_map]. rewrite app_nil_r. reflexivity.
  - destruct fuel as [|fuel]; [lia|]. cbn [put_stats]. rewrite unknown_id. replace (id <=? 83) with true by lia. rewrite put_one by exact A.
    destruct (cap <? zlen b + size) eqn:E.
    + assert (K : k = O) by (unfold k; rewrite Z.div_small by lia; reflexivity). rewrite K. cbn [firstn flat_map]. rewrite app_nil_r. reflexivity.
    + assert (K : k = S (Z.to_nat ((cap - zlen (b ++ s_enc v id)) / size))).
      { unfold k. rewrite zlen_app, s_enc_size. replace (cap - zlen b) with ((cap - (zlen b + size)) + 1 * size) by lia. rewrite Z.div_add by lia.
        assert (0 <= (cap - (zlen b + size)) / size) by (apply Z.div_pos; lia). lia. }
      rewrite (IH fuel (id + 1) (b ++ s_enc v id)) by (try lia; try (rewrite zlen_app, s_enc_size; lia);
        intros X; rewrite zlen_app, s_enc_size; unfold size; rewrite X; replace (20 + (zlen b + 16)) with ((20 + zlen b) + 2 * 8) by lia; rewrite Z.mod_add by lia; apply A; exact X).
      rewrite K. cbn [range firstn flat_map]. rewrite <- app_assoc. reflexivity.
Qed.

Lemma page_attrs : forall v ids, Forall (fun id => 1 <= id <= 83) ids -> (forall id, 0 <= v id < 2 ^ 64) ->
  map (stat_of h) (fst (attributes h (flat_map (s_enc v) ids))) = lines align v ids.
Proof.
  intros v ids F V. induction F as [|id ids R F IH]; [reflexivity|]. cbn [flat_map lines]. unfold s_enc at 1. fold (lines align v ids).
  assert (T : forall ty d, 0 <= ty < 16384 -> nla_type (Attr ty d) = ty) by (intros ty d Q; apply nla_type_plain; lia).
  assert (One : stat_of h (Attr id (host_octets h 8 (v id))) = Stat id (nth_error stat_enum (Z.to_nat (id - 1))) (v id)).
  { unfold stat_of. rewrite T by lia. rewrite max_id. replace ((id <? 1) || (84 <=? id)) with false by lia. rewrite named by lia. f_equal.
    unfold nla_get_u64_u. cbn [a_data]. rewrite zlen_host. change (Z.of_nat 8 <? 8) with false. cbv iota. rewrite firstn_all2 by (rewrite length_host; lia). apply host_number_octets. apply V. }
  assert (B : attributes h (blk h id (host_octets h 8 (v id)) ++ flat_map (s_enc v) ids) = (Attr id (host_octets h 8 (v id)) :: fst (attributes h (flat_map (s_enc v) ids)), snd (attributes h (flat_map (s_enc v) ids)))).
  { apply attributes_blk; [lia|rewrite zlen_host; lia]. }
  destruct align eqn:A; rewrite <- app_assoc.
  - rewrite attributes_blk by (rewrite ?padding_id; cbn; lia). cbn [fst map]. rewrite B. cbn [fst map]. rewrite One, IH. cbn [app].
    f_equal.
  - cbn [app]. rewrite B. cbn [fst map]. rewrite One, IH. reflexivity.
Qed.
End Pages.

Lemma offset_parsed : forall h d, zlen d = 1 -> nla_parse_k h JNLAR_MAX jool_policy (blk h JNLAR_OFFSET_U8 d) = Got (tset empty JNLAR_OFFSET_U8 (Attr JNLAR_OFFSET_U8 d)).
Proof.
  intros h d D. unfold nla_parse_k. rewrite (attributes_blk1 h) by (unfold JNLAR_OFFSET_U8; lia). cbn [parse_each_k].
  rewrite nla_type_plain by (unfold JNLAR_OFFSET_U8; lia). change ((JNLAR_OFFSET_U8 =? 0) || (JNLAR_MAX <? JNLAR_OFFSET_U8)) with false.
  change (jool_policy JNLAR_OFFSET_U8) with PU8. cbn iota. unfold validate_k. cbn [a_data]. rewrite D. destruct (h_strict h); reflexivity.
Qed.

Section Loop.
Context (h : host) (align : bool) {S I : Type} (K : kernel S I) (query : I -> S -> option (Z -> Z)) (u : client) (w : answering).
Hypothesis N : normal K u w.
Hypothesis V : forall i s v, query i s = Some v -> forall id, 0 <= v id < 2 ^ 64.

Definition s_ask (last : Z) : list Z := if last =? 0 then [] else blk h JNLAR_OFFSET_U8 (host_octets h 1 last).

Lemma refused_stats : forall a e, response_handler h u a = Got (told w (Err e)) -> stats_response h u a = Got ([], Some (Failed (told w (Err e)))).
Proof.
  intros a e. unfold response_handler, stats_response, told.
  destruct (zlen a <? 28); [discriminate|]. destruct (negb (validate_joolnlhdr u a)); [discriminate|]. destruct (bit_and (hdr_flags a) FLAGS_ERROR); [|discriminate].
  intros ->. reflexivity.
Qed.

Lemma stats_page : forall n v ids (more : bool), (List.length n <= 15)%nat -> Forall (fun id => 1 <= id <= 83) ids -> (forall id, 0 <= v id < 2 ^ 64) ->
  stats_response h u (header (u_version u) (u_xt u) (if more then 8 else 0) n ++ flat_map (s_enc h align v) ids) = Got (lines align v ids, if more then None else Some Complete).
Proof.
  intros n v ids more L F B. unfold stats_response. rewrite f_long, (header_valid K u w N), f_flags, f_rest by lia. cbn [negb].
  replace (bit_and (if more then 8 else 0) FLAGS_ERROR) with false by (destruct more; reflexivity). rewrite page_attrs by assumption. destruct more; reflexivity.
Qed.

Lemma stats_answer : forall n last s, fit_name n -> 0 <= last <= 83 ->
  exists a, serve_stats h align K query w true (header (u_version u) (u_xt u) 0 (iname_of n) ++ s_ask last) s = Got (Some a) /\
    stats_response h u a = Got
      match stats_in K query (u_xt u) n s with
      | inl e => ([], Some (Failed (told w (Err e))))
      | inr v => let k := Z.to_nat ((a_cap w - 28) / size align) in
        if (List.length (Stat_Spec.after last) <=? k)%nat then (lines align v (Stat_Spec.after last), Some Complete) else (lines align v (firstn k (Stat_Spec.after last)), None)
      end.
Proof.
  intros n last s FN R. destruct (fit_iname n FN) as [L P].
  assert (SIMPLE : forall e, exists a, jresponse_send_simple h w (header (u_version u) (u_xt u) 0 (iname_of n) ++ s_ask last) (Err e) = Some a /\
    stats_response h u a = Got ([], Some (Failed (told w (Err e))))).
  { intros e. destruct (answered h K u w N (iname_of n) 0 (s_ask last) (Err e) L ltac:(lia) eq_refl) as (a & A1 & A2). exists a. split; [exact A1|apply refused_stats; exact A2]. }
  unfold serve_stats. rewrite f_long by lia. rewrite f_rest by lia.
  assert (Q : exists t, nla_parse_k h JNLAR_MAX jool_policy (s_ask last) = Got t /\ match t JNLAR_OFFSET_U8 with Some a => nla_get h 1 a | None => Got 0 end = Got last).
  { unfold s_ask. destruct (last =? 0) eqn:E; [exists empty; split; [reflexivity|cbn; f_equal; lia]|]. eexists. split; [apply offset_parsed; rewrite zlen_host; reflexivity|].
    unfold tset. rewrite Z.eqb_refl. unfold nla_get. cbn [a_data]. rewrite length_host. change (1 <? 1)%nat with false. cbv iota. rewrite firstn_all2 by (rewrite length_host; lia).
    rewrite host_number_octets by (cbn; lia). reflexivity. }
  destruct Q as (t & -> & Qt). cbn [rbind]. rewrite (start_ok K u w N) by assumption. unfold stats_in.
  assert (X : bit_and (u_xt u) XT_ANY = true) by (destruct (types K u w N) as [-> | ->]; reflexivity). rewrite X. cbn [negb].
  replace (match iname_of n with [] => INAME_DEFAULT | _ :: _ => iname_of n end) with (name_of n) by (destruct n as [[|]|]; reflexivity).
  destruct (k_find K (name_of n) (u_xt u) s) as [e|i]. { destruct (SIMPLE e) as (a & A1 & A2). exists a. rewrite A1. split; [reflexivity|exact A2]. }
  rewrite Qt. cbn [rbind]. destruct (query i s) as [v|] eqn:EQ; [|destruct (SIMPLE ENOMEM) as (a & A1 & A2); exists a; rewrite A1; split; [reflexivity|exact A2]].
  destruct (n_memory K u w N) as [_ M]. destruct (n_room K u w N) as [_ C].
  unfold jresponse_init. rewrite M. replace (a_cap w <? 28) with false by lia. cbn [negb orb]. rewrite f_first by lia.
  assert (H28 : zlen (header (u_version u) (u_xt u) 0 (iname_of n)) = 28) by (unfold zlen; rewrite header_length by lia; reflexivity).
  rewrite (put_page h align (a_cap w) v (Z.to_nat (83 - last))) by (rewrite ?count_id, ?H28; try lia; intros _; reflexivity).
  rewrite H28. fold (Stat_Spec.after last). set (k := Z.to_nat ((a_cap w - 28) / size align)). cbv zeta.
  assert (Len : List.length (Stat_Spec.after last) = Z.to_nat (83 - last)) by apply range_length. rewrite Len.
  assert (FA : Forall (fun id => 1 <= id <= 83) (firstn k (Stat_Spec.after last))).
  { apply Forall_forall. intros x Ix. apply in_firstn in Ix. apply range_in in Ix. lia. }
  assert (K1 : (1 <= k)%nat).
  { unfold k. assert (1 <= (a_cap w - 28) / size align) by (apply Z.div_le_lower_bound; unfold size; destruct align; lia). lia. }
  destruct (k <? Z.to_nat (83 - last))%nat eqn:E.
  - apply Nat.ltb_lt in E. replace (Z.to_nat (83 - last) <=? k)%nat with false by (symmetry; apply Nat.leb_gt; lia).
    replace (Nat.eqb _ _) with false.
    2:{ symmetry. apply Nat.eqb_neq. rewrite app_length. unfold Stat_Spec.after. destruct k as [|k]; [lia|]. destruct (Z.to_nat (83 - last)) as [|m]; [lia|]. cbn [range firstn flat_map].
        rewrite app_length. pose proof (s_enc_size h align v (last + 1)) as Z. unfold zlen, size in Z. destruct align; lia. }
    rewrite (set_m u) by exact L. eexists. split; [reflexivity|]. rewrite (stats_page (iname_of n) v _ true L FA (V i s v EQ)). reflexivity.
  - apply Nat.ltb_ge in E. replace (Z.to_nat (83 - last) <=? k)%nat with true by (symmetry; apply Nat.leb_le; lia).
    eexists. split; [reflexivity|]. rewrite (stats_page (iname_of n) v _ false L FA (V i s v EQ)). rewrite firstn_all2 by lia. reflexivity.
Qed.

Lemma after_skip : forall k last, 0 <= last -> (k < List.length (Stat_Spec.after last))%nat -> skipn k (Stat_Spec.after last) = Stat_Spec.after (last + Z.of_nat k).
Proof.
  intros k last R L. unfold Stat_Spec.after in *. rewrite range_length in L. rewrite range_skip. f_equal; lia.
Qed.

Lemma last_line : forall k last v, (1 <= k)%nat -> (k < List.length (Stat_Spec.after last))%nat -> exists x l, rev (lines align v (firstn k (Stat_Spec.after last))) = x :: l /\ st_id x = last + Z.of_nat k.
Proof.
  intros k last v K1 L. unfold Stat_Spec.after in *. rewrite range_length in L. rewrite range_first by lia. destruct k as [|k]; [lia|]. rewrite range_last. unfold lines. rewrite flat_map_app. cbn [flat_map]. rewrite app_nil_r.
  rewrite rev_app_distr. destruct align; cbn [app rev]; eexists _, _; (split; [reflexivity|]); cbn [st_id]; lia.
Qed.

Lemma stats_loop_ok : forall n, fit_name n -> forall states last, 0 <= last <= 83 ->
  stats_loop h align K query u w true n last states = Got (shown_stats w align (Stat_Spec.after last) (map (stats_in K query (u_xt u) n) states)).
Proof.
  intros n FN states. induction states as [|s states IH]; intros last R; [reflexivity|]. cbn [stats_loop map shown_stats].
  rewrite (alloc_ok K u w N n FN). destruct (fit_iname n FN) as [L _]. destruct (n_room K u w N) as [Rm C].
  assert (A : (if last =? 0 then done else nla_put_u8 h (u_cap u) JNLAR_OFFSET_U8 last) (header (u_version u) (u_xt u) 0 (iname_of n)) = Put (header (u_version u) (u_xt u) 0 (iname_of n) ++ s_ask last)).
  { unfold s_ask. destruct (last =? 0); [rewrite app_nil_r; reflexivity|]. unfold nla_put_u8. apply (written (u_cap u) _ _ _ (put_writes h (u_cap u) JNLAR_OFFSET_U8 (host_octets h 1 last))).
    rewrite zlen_blk, zlen_host. unfold zlen. rewrite header_length by lia. unfold padding. change ((- Z.of_nat 1) mod 4) with 3. lia. }
  rewrite A. destruct (stats_answer n last s FN R) as (a & A1 & A2). rewrite A1. cbv iota. rewrite A2. clear A A1 A2 a.
  destruct (stats_in K query (u_xt u) n s) as [e|v]; [reflexivity|]. cbv zeta. fold (size align). set (k := Z.to_nat ((a_cap w - 28) / size align)).
  destruct (List.length (Stat_Spec.after last) <=? k)%nat eqn:E; [reflexivity|]. apply Nat.leb_gt in E.
  assert (K1 : (1 <= k)%nat).
  { unfold k. assert (1 <= (a_cap w - 28) / size align) by (apply Z.div_le_lower_bound; unfold size; destruct align; lia). lia. }
  destruct (last_line k last v K1 E) as (x & l & -> & Ex). rewrite Ex. rewrite after_skip by lia.
  rewrite IH. 2:{ unfold Stat_Spec.after in E. rewrite range_length in E. lia. }
  reflexivity.
Qed.
End Loop.

(** ** What is shown *)

Lemma pages_some : forall w (align : bool), 200 <= a_cap w -> (1 <= Z.to_nat ((a_cap w - 28) / (if align then 16 else 12)))%nat.
Proof. intros w align C. assert (1 <= (a_cap w - 28) / (if align then 16 else 12)) by (apply Z.div_le_lower_bound; destruct align; lia). lia. Qed.

Lemma lines_app : forall align v a b, lines align v (a ++ b) = lines align v a ++ lines align v b.
Proof. intros. apply flat_map_app. Qed.

Lemma shown_same : forall w (align : bool) (v : Z -> Z), 200 <= a_cap w -> forall (views : list (errno + (Z -> Z))) ids, (List.length ids < List.length views)%nat -> Forall (fun x => x = @inr errno (Z -> Z) v) views ->
  shown_stats w align ids views = (lines align v ids, Complete).
Proof.
  intros w align v C views. induction views as [|x views IH]; intros ids L F; [cbn in L; lia|]. inversion F as [|? ? -> F']; subst. cbn [shown_stats]. cbv zeta.
  pose proof (pages_some w align C) as K1. set (k := Z.to_nat ((a_cap w - 28) / (if align then 16 else 12))) in *.
  destruct (List.length ids <=? k)%nat eqn:E; [reflexivity|]. apply Nat.leb_gt in E.
  rewrite IH; [|rewrite skipn_length; cbn [List.length] in L; lia|exact F']. cbn [fst snd]. rewrite <- lines_app, firstn_skipn. reflexivity.
Qed.

(** Lines with names *)
Definition is_named (x : stat) : bool := match st_name x with Some _ => true | None => false end.

Lemma lines_named : forall align v ids, Forall (fun id => 1 <= id <= 83) ids ->
  map st_id (filter is_named (lines align v ids)) = ids /\
  Forall (fun x => 1 <= st_id x <= 83 /\ st_name x = nth_error stat_enum (Z.to_nat (st_id x - 1)) /\ st_value x = v (st_id x)) (filter is_named (lines align v ids)).
Proof.
  intros align v ids F. induction F as [|id ids R F (I1 & I2)]; [split; [reflexivity|constructor]|].
  assert (Nm : exists x, nth_error stat_enum (Z.to_nat (id - 1)) = Some x).
  { destruct (nth_error stat_enum (Z.to_nat (id - 1))) eqn:E; [eauto|]. apply nth_error_None in E. change (List.length stat_enum) with 85%nat in E. lia. }
  destruct Nm as (x & Nm). unfold lines. cbn [flat_map]. fold (lines align v ids). rewrite filter_app.
  assert (Q : filter is_named ((if align then [Stat 84 None 0] else []) ++ [Stat id (nth_error stat_enum (Z.to_nat (id - 1))) (v id)]) = [Stat id (nth_error stat_enum (Z.to_nat (id - 1))) (v id)]).
  { rewrite Nm. destruct align; reflexivity. }
  rewrite Q. split; [cbn [app map st_id]; rewrite I1; reflexivity|]. cbn [app]. constructor; [|exact I2]. cbn [st_id st_name st_value]. auto.
Qed.

Lemma shown_named : forall w (align : bool), 200 <= a_cap w -> forall (views : list (errno + (Z -> Z))) ids, (List.length ids < List.length views)%nat -> Forall (fun id => 1 <= id <= 83) ids ->
  Forall (fun x => exists v : Z -> Z, x = @inr errno (Z -> Z) v) views ->
  exists l, shown_stats w align ids views = (l, Complete) /\ map st_id (filter is_named l) = ids /\
    Forall (fun x => st_name x = nth_error stat_enum (Z.to_nat (st_id x - 1)) /\ exists v : Z -> Z, In (@inr errno (Z -> Z) v) views /\ st_value x = v (st_id x)) (filter is_named l).
Proof.
  intros w align C views. induction views as [|x views IH]; intros ids L R F; [cbn in L; lia|]. inversion F as [|? ? [v ->] F']; subst. cbn [shown_stats]. cbv zeta.
  pose proof (pages_some w align C) as K1. set (k := Z.to_nat ((a_cap w - 28) / (if align then 16 else 12))) in *.
  assert (Up : forall l, Forall (fun x => 1 <= st_id x <= 83 /\ st_name x = nth_error stat_enum (Z.to_nat (st_id x - 1)) /\ st_value x = v (st_id x)) l ->
    Forall (fun x => st_name x = nth_error stat_enum (Z.to_nat (st_id x - 1)) /\ exists v0 : Z -> Z, In (@inr errno (Z -> Z) v0) (inr v :: views) /\ st_value x = v0 (st_id x)) l).
  { intros l G. eapply Forall_impl; [|exact G]. intros y (_ & G1 & G2). split; [exact G1|]. exists v. split; [left; reflexivity|exact G2]. }
  destruct (List.length ids <=? k)%nat eqn:E.
  - destruct (lines_named align v ids R) as (N1 & N2). eexists. split; [reflexivity|]. split; [exact N1|apply Up; exact N2].
  - apply Nat.leb_gt in E. rewrite <- (firstn_skipn k ids) in R. apply Forall_app in R. destruct R as [R1 R2]. destruct (lines_named align v _ R1) as (N1 & N2).
    destruct (IH (skipn k ids)) as (l & -> & M1 & M2); [rewrite skipn_length; cbn [List.length] in L; lia|exact R2|exact F'|]. cbn [fst snd].
    eexists. split; [reflexivity|]. rewrite filter_app, map_app, N1, M1, firstn_skipn. split; [reflexivity|]. apply Forall_app. split; [apply Up; exact N2|].
    eapply Forall_impl; [|exact M2]. intros y (G1 & v0 & G2 & G3). split; [exact G1|]. exists v0. split; [right; exact G2|exact G3].
Qed.

(** However many replies it takes, and though the counters change meanwhile: each counter is shown once, in order, under its name, with a value that it had
    at some request; any other line is about nothing ("????"). If the instance is not there or there is no memory at some request, that is told.
    ([joolnl_stats_foreach] shows exactly what [shown_stats] says.) Missing: that there are no other lines ([C96_unknown_refuted]). *)
Theorem C96_listed_partial : forall h align S I (K : kernel S I) query u w n states, normal K u w -> fit_name n ->
  (forall i s v, query i s = Some v -> forall id, 0 <= v id < 2 ^ 64) ->
  joolnl_stats_foreach h align K query u w true n states = Got (shown_stats w align (range 1 83) (map (stats_in K query (u_xt u) n) states)) /\
  ((84 <= List.length states)%nat -> (forall s, In s states -> exists i v, k_find K (name_of n) (u_xt u) s = inr i /\ query i s = Some v) ->
   exists l, joolnl_stats_foreach h align K query u w true n states = Got (l, Complete) /\ map st_id (filter is_named l) = range 1 83 /\
     Forall (fun x => st_name x = nth_error stat_enum (Z.to_nat (st_id x - 1)) /\
       exists s i v, In s states /\ k_find K (name_of n) (u_xt u) s = inr i /\ query i s = Some v /\ st_value x = v (st_id x)) (filter is_named l)).
Proof.
  intros h align S I K query u w n states N FN V.
  assert (E : joolnl_stats_foreach h align K query u w true n states = Got (shown_stats w align (range 1 83) (map (stats_in K query (u_xt u) n) states))).
  { unfold joolnl_stats_foreach. rewrite metadata_fits. apply (stats_loop_ok h align K query u w N V n FN states 0). lia. }
  split; [exact E|]. intros L F. destruct (n_room K u w N) as [_ C].
  assert (F' : Forall (fun x => exists v : Z -> Z, x = @inr errno (Z -> Z) v) (map (stats_in K query (u_xt u) n) states)).
  { apply Forall_forall. intros x X. apply in_map_iff in X. destruct X as (s & <- & X). destruct (F s X) as (i & v & F1 & F2). exists v. unfold stats_in. rewrite F1, F2. reflexivity. }
  assert (R : Forall (fun id => 1 <= id <= 83) (range 1 83)) by (apply Forall_forall; intros x X; apply range_in in X; lia).
  destruct (shown_named w align ltac:(lia) (map (stats_in K query (u_xt u) n) states) (range 1 83)) as (l & Q & M1 & M2); [rewrite map_length, range_length; lia|exact R|exact F'|].
  exists l. rewrite E, Q. split; [reflexivity|]. split; [exact M1|]. eapply Forall_impl; [|exact M2]. intros x (G1 & v & G2 & G3). split; [exact G1|].
  apply in_map_iff in G2. destruct G2 as (s & G2 & G4). destruct (F s G4) as (i & v' & F1 & F2). unfold stats_in in G2. rewrite F1, F2 in G2. injection G2 as ->. exists s, i, v. auto.
Qed.

(** What is shown is what was counted: if, on machines that do not want alignment, [l] has been counted, on any processors, the listing shows each counter in
    order, with its name and the sum of what was counted (as an unsigned long of 32 or 64 bits); only those that are not zero are printed unless all are
    asked for. *)
Theorem C96_counted_partial : forall h S I (K : kernel S I) query u w n states bits cpus l, normal K u w -> fit_name n ->
  bits = 32 \/ bits = 64 -> NoDup cpus -> Forall (fun x => In (fst x) cpus) l ->
  (forall i s, query i s = jstat_query bits cpus true (fold_left (counted bits) l jstat_alloc)) ->
  (84 <= List.length states)%nat -> (forall s, In s states -> exists i, k_find K (name_of n) (u_xt u) s = inr i) ->
  exists shown, joolnl_stats_foreach h false K query u w true n states = Got (shown, Complete) /\
    shown = map (fun id => Stat id (nth_error stat_enum (Z.to_nat (id - 1))) (total l id mod 2 ^ bits)) (range 1 83) /\
    printed true shown = shown /\ (forall x, In x (printed false shown) <-> In x shown /\ total l (st_id x) mod 2 ^ bits <> 0).
Proof.
  intros h S I K query u w n states bits cpus l N FN B ND F Q L G.
  assert (V : forall i s v, query i s = Some v -> forall id, v id = total l id mod 2 ^ bits).
  { intros i s v E id. rewrite Q in E. injection E as <-. apply counted_total; try assumption. lia. }
  assert (P : forall id, 0 <= total l id mod 2 ^ bits < 2 ^ 64) by (intros id; destruct B as [-> | ->]; [pose proof (Z.mod_pos_bound (total l id) (2 ^ 32))|pose proof (Z.mod_pos_bound (total l id) (2 ^ 64))]; lia).
  destruct (C96_listed_partial h false S I K query u w n states N FN) as (E & _); [intros i s v X id; rewrite (V i s v X); apply P|].
  destruct (n_room K u w N) as [_ C].
  rewrite (shown_same w false (snmp_fold_field bits cpus (fold_left (counted bits) l jstat_alloc))) in E; [|lia|rewrite map_length, range_length; lia|].
  2:{ apply Forall_forall. intros x X. apply in_map_iff in X. destruct X as (s & <- & X). destruct (G s X) as (i & G1). unfold stats_in. rewrite G1, Q. reflexivity. }
  eexists. split; [exact E|].
  assert (Ln : forall ids, lines false (snmp_fold_field bits cpus (fold_left (counted bits) l jstat_alloc)) ids = map (fun id => Stat id (nth_error stat_enum (Z.to_nat (id - 1))) (total l id mod 2 ^ bits)) ids).
  { induction ids as [|id ids IH]; [reflexivity|]. cbn [map]. rewrite <- IH. rewrite <- (counted_total bits cpus l id) by (assumption || lia). reflexivity. }
  rewrite Ln. split; [reflexivity|]. split.
  - unfold printed. cbn [orb]. set (x := map _ _). clearbody x. clear. induction x as [|a x IH]; [reflexivity|]. cbn [filter]. rewrite IH. reflexivity.
  - intros x. unfold printed. rewrite filter_In. cbn [orb]. rewrite in_map_iff. split; intros (X & Y); (split; [exact X|]); destruct X as (id & <- & _); cbn [st_id st_value] in *; lia.
Qed.

(** On machines that want alignment, each counter is preceded by a line about an unknown one (and the client warns that others might be mislabeled). *)
Definition a_history : list (Z * count) := [(0, Inc 1); (1, Inc 5); (0, Inc 5); (1, Dec 5); (0, Add 83 7); (1, Dec 4)].
Definition a_query (i : unit) (s : machine) : option (Z -> Z) := jstat_query 64 [0; 1] true (fold_left (counted 64) a_history jstat_alloc).
Theorem C96_unknown_refuted : exists shown, normal demo siit answers /\
  joolnl_stats_foreach le true demo a_query siit answers true None [fresh_machine] = Got (shown, Complete) /\ List.length shown = 166%nat /\
  In (Stat 84 None 0) (printed true shown) /\ nth_error stat_enum 83 = Some "JSTAT_PADDING"%string.
Proof. eexists. split; [exact normal_siit|]. split; [vm_compute; reflexivity|]. split; [reflexivity|]. split; [vm_compute; left; reflexivity|reflexivity]. Qed.

(** Sessions come and go on two processors; seven errors; a counter that has gone below zero. Replies of 200 octets take six requests. *)
Example C96_case : normal demo siit narrow /\ a_cap narrow = 200 /\ Forall (fun x => In (fst x) [0; 1]) a_history /\
  (forall s, In s (repeat fresh_machine 84) -> exists i, k_find demo (name_of None) (u_xt siit) s = inr i) /\
  exists shown, joolnl_stats_foreach le false demo a_query siit narrow true None (repeat fresh_machine 6) = Got (shown, Complete) /\ List.length shown = 83%nat /\
    printed false shown = [Stat 1 (Some "JSTAT_RECEIVED6"%string) 1; Stat 4 (Some "JSTAT_BIB_ENTRIES"%string) (2 ^ 64 - 1); Stat 5 (Some "JSTAT_SESSIONS"%string) 1; Stat 83 (Some "JSTAT_UNKNOWN"%string) 7].
Proof.
  split; [exact narrow_siit|]. split; [reflexivity|]. split; [repeat (constructor; [cbn; auto|]); constructor|]. split; [intros s X; apply repeat_spec in X; subst s; exists tt; vm_compute; reflexivity|].
  eexists. split; [vm_compute; reflexivity|]. split; [reflexivity|]. vm_compute. reflexivity.
Qed.

Print Assumptions C96_listed_partial.
Print Assumptions C96_counted_partial.
Print Assumptions C96_unknown_refuted.
