(** Theorems about sessions on their way from machine to machine. *)
Require Import Verif.Base Verif.Addr_Model Verif.Rtrie_Model Verif.Pool4_Model Verif.Fsm_Model Verif.Bib_Model
  Verif.Bib_Ops Verif.Bib_Hist Verif.Bib_Spec Verif.Bib_Properties Verif.Nat64_Model Verif.Nat64_Spec
  Verif.Joold_Model Verif.Joold_Spec Verif.Joold_Codec Verif.Glob_Model Verif.Inst_Model Verif.Nla_Model Verif.Nla_Spec Verif.Nla_Proofs Verif.Req_Model Verif.Req_Proofs
  Verif.Sync_Model Verif.Sync_Spec.
Local Ltac Zify.zify_post_hook ::= idtac.

(** ** The message *)

Definition wire (h : host) (d now : Z) (l : list (proto * sentry)) : list Z :=
  flat_map (fun x => blk h JNLAL_ENTRY (put_session d now (fst x) (snd x))) l.

Lemma zlen_wire : forall h d now l, zlen (wire h d now l) = 40 * zlen l.
Proof.
  intros h d now l. induction l as [|x l IH]; [reflexivity|]. cbn [wire flat_map]. fold (wire h d now l).
  rewrite zlen_app, zlen_blk, IH. unfold zlen. rewrite put_length. cbn [length]. change (padding (Z.of_nat 36)) with 0. lia.
Qed.

Lemma entry_writes : forall h cap d now x, writes cap (nla_put h cap JNLAL_ENTRY (put_session d now (fst x) (snd x))) (blk h JNLAL_ENTRY (put_session d now (fst x) (snd x))).
Proof. intros. apply put_writes. Qed.

Lemma sessions_writes : forall h cap d now l, l <> [] -> writes cap (put_sessions h cap d now l) (wire h d now l).
Proof.
  intros h cap d now l. induction l as [|x [|y l] IH]; intros N; [contradiction| |].
  - cbn [put_sessions fold_right wire flat_map]. rewrite app_nil_r.
    destruct (entry_writes h cap d now x) as (M & W). split; [exact M|]. intros b. specialize (W b). unfold andthen.
    destruct (_ <=? cap); [rewrite W; reflexivity|]. destruct W as (z & W). exists z. rewrite W. reflexivity.
  - change (put_sessions h cap d now (x :: y :: l)) with (andthen (nla_put h cap JNLAL_ENTRY (put_session d now (fst x) (snd x))) (put_sessions h cap d now (y :: l))).
    change (wire h d now (x :: y :: l)) with (blk h JNLAL_ENTRY (put_session d now (fst x) (snd x)) ++ wire h d now (y :: l)).
    apply andthen_writes; [apply entry_writes|apply IH; discriminate].
Qed.

Lemma announced : forall h cap version iname d now l, l <> [] -> (length iname <= 16)%nat -> 40 * zlen l <= 65531 ->
  announce h cap version iname d now l =
    if 32 + 40 * zlen l <=? cap then Some (header version XT_NAT64 0 iname ++ blk h (flag_k h JNLAR_SESSION_ENTRIES) (wire h d now l)) else None.
Proof.
  intros h cap version iname d now l N L S. unfold announce. destruct l as [|x l]; [contradiction|]. fold (header version XT_NAT64 0 iname).
  set (b := header version XT_NAT64 0 iname). set (ls := x :: l) in *.
  destruct (nest_k_writes h cap JNLAR_SESSION_ENTRIES _ _ (sessions_writes h cap d now ls N) ltac:(rewrite zlen_wire; exact S)) as ((_ & W) & _).
  specialize (W b). rewrite zlen_blk, zlen_wire in W.
  assert (B : zlen b = 28). { unfold zlen, b. rewrite header_length by exact L. reflexivity. }
  assert (P : padding (40 * zlen ls) = 0). { unfold padding. replace (- (40 * zlen ls)) with ((- (10 * zlen ls)) * 4) by lia. apply Z.mod_mul. lia. }
  rewrite B, P in W. replace (28 + (4 + 40 * zlen ls + 0)) with (32 + 40 * zlen ls) in W by lia.
  destruct (32 + 40 * zlen ls <=? cap); [rewrite W; reflexivity|]. destruct W as (z & ->). reflexivity.
Qed.

(** ** The daemon *)

Lemma blk_head : forall h ty d x, 0 <= ty < 65536 -> zlen d <= 65531 ->
  host_number h (firstn 2 (blk h ty d ++ x)) = 4 + zlen d /\ host_number h (firstn 2 (skipn 2 (blk h ty d ++ x))) = ty /\
  skipn 4 (blk h ty d ++ x) = (d ++ repeat 0 (Z.to_nat (padding (zlen d)))) ++ x.
Proof.
  intros h ty d x T D. unfold blk. rewrite <- !app_assoc. pose proof (zlen_nonneg _ d).
  repeat split.
  - rewrite firstn_app_exact by (rewrite length_host; reflexivity). apply host_number_octets. change (256 ^ Z.of_nat 2) with 65536. lia.
  - rewrite skipn_app_exact by (rewrite length_host; reflexivity). rewrite firstn_app_exact by (rewrite length_host; reflexivity).
    apply host_number_octets. change (256 ^ Z.of_nat 2) with 65536. lia.
  - rewrite (app_assoc (host_octets h 2 _) (host_octets h 2 _)). apply skipn_app_exact. rewrite app_length, !length_host. reflexivity.
Qed.

Lemma detached : forall h u iname version d now l, u_xt u = XT_NAT64 -> is_u32 version -> same_version (u_version u) version = true ->
  (length iname <= 15)%nat -> Forall (fun c => 32 <= c <= 127) iname -> 40 * zlen l <= 65531 ->
  updated_entries_cb h u iname (header version XT_NAT64 0 iname ++ blk h (flag_k h JNLAR_SESSION_ENTRIES) (wire h d now l)) = Got (Some (wire h d now l)).
Proof.
  intros h u iname version d now l X V SV L F Sz. unfold updated_entries_cb.
  rewrite f_long by lia. unfold validate_joolnlhdr. rewrite f_magic. rewrite f_version by (exact V || lia). rewrite f_xt, SV, X by lia.
  destruct (list_eq_dec Z.eq_dec JOOLNL_HDR_MAGIC JOOLNL_HDR_MAGIC) as [_|C]; [|contradiction]. change (bit_and XT_NAT64 XT_NAT64) with true. cbn [andb negb].
  rewrite f_iname by lia. replace (16 - length iname)%nat with (S (15 - length iname)) by lia. cbn [repeat].
  rewrite cstring_app by (eapply Forall_impl; [|exact F]; cbn; lia).
  destruct (list_eq_dec Z.eq_dec (map lower iname) (map lower iname)) as [_|C]; [|contradiction]. cbn [negb].
  rewrite f_flags. change (bit_and 0 FLAGS_ERROR) with false. cbn iota.
  rewrite f_rest by lia.
  assert (R : 0 <= flag_k h JNLAR_SESSION_ENTRIES < 65536) by (apply (flag_range h _ _ (flagger_k h)); unfold JNLAR_SESSION_ENTRIES; lia).
  pose proof (blk_head h (flag_k h JNLAR_SESSION_ENTRIES) (wire h d now l) [] R ltac:(rewrite zlen_wire; exact Sz)) as (H1 & H2 & H3).
  rewrite !app_nil_r in *. rewrite H1, H2, H3.
  pose proof (zlen_nonneg _ l). pose proof (nla_type_flag h (flag_k h) JNLAR_SESSION_ENTRIES [] (flagger_k h) ltac:(unfold JNLAR_SESSION_ENTRIES; lia)) as T.
  unfold nla_type in T. cbn [a_type] in T. rewrite T.
  assert (P : padding (zlen (wire h d now l)) = 0).
  { rewrite zlen_wire. unfold padding. replace (- (40 * zlen l)) with ((- (10 * zlen l)) * 4) by lia. apply Z.mod_mul. lia. }
  rewrite zlen_blk, P. rewrite zlen_wire.
  replace (4 + 40 * zlen l + 0 <? 4) with false by lia. rewrite Z.eqb_refl. cbn [negb].
  replace (4 + 40 * zlen l - 4) with (40 * zlen l) by lia. replace (40 * zlen l <? 0) with false by lia.
  replace (4 + 40 * zlen l + 0 - 4 <? 40 * zlen l) with false by lia. cbn [orb]. cbn [Z.to_nat repeat]. rewrite app_nil_r.
  rewrite firstn_all2; [reflexivity|]. rewrite <- (zlen_wire h d now l). unfold zlen. rewrite Nat2Z.id. lia.
Qed.

(** What reaches the module of the machine that receives *)
Definition ready (u : client) (iname : name) : Prop :=
  u_mem u = true /\ 2080 <= u_cap u /\ (length iname <= 15)%nat /\ Forall (fun c => 32 <= c <= 127) iname.

Lemma handed : forall h u iname data, ready u iname -> zlen data <= 2048 ->
  joolnl_joold_add h u iname data = Some (header (u_version u) (u8 (u_xt u)) 0 iname ++ blk h (flag_u JNLAR_SESSION_ENTRIES) data).
Proof.
  intros h u iname data (M & C & L & F) D. unfold joolnl_joold_add, joolnl_alloc_msg, iname_validate_u.
  replace (length iname <? 16)%nat with true by (symmetry; apply Nat.ltb_lt; lia).
  assert (FB : forallb (fun c => (32 <=? c) && (c <? 128)) iname = true).
  { apply forallb_forall. intros c I. rewrite Forall_forall in F. specialize (F c I). cbn in F. lia. }
  rewrite FB, M. cbn [andb negb orb]. replace (u_cap u <? 28) with false by lia. cbn iota.
  change (u8 0) with 0. fold (header (u_version u) (u8 (u_xt u)) 0 iname).
  change (Z.lor NLA_F_NESTED JNLAR_SESSION_ENTRIES) with (flag_u JNLAR_SESSION_ENTRIES).
  destruct (put_writes h (u_cap u) (flag_u JNLAR_SESSION_ENTRIES) data) as (_ & W).
  specialize (W (header (u_version u) (u8 (u_xt u)) 0 iname)).
  assert (B : zlen (header (u_version u) (u8 (u_xt u)) 0 iname) = 28) by (unfold zlen; rewrite header_length by lia; reflexivity).
  rewrite B, zlen_blk in W.
  assert (P : zlen data + padding (zlen data) <= 2048).
  { unfold padding. pose proof (Z.mod_pos_bound (- zlen data) 4 ltac:(lia)). pose proof (Z.div_mod (- zlen data) 4 ltac:(lia)). lia. }
  replace (28 + (4 + zlen data + padding (zlen data)) <=? u_cap u) with true in W by lia. rewrite W. reflexivity.
Qed.

Lemma parsed : forall h data, zlen data <= 2048 ->
  nla_parse_k h JNLAR_MAX jool_policy (blk h (flag_u JNLAR_SESSION_ENTRIES) data) =
    if (zlen data =? 0) || (4 <=? zlen data) then Got (tset empty JNLAR_SESSION_ENTRIES (Attr (flag_u JNLAR_SESSION_ENTRIES) data)) else Bad EINVAL.
Proof.
  intros h data D. assert (T : 0 <= JNLAR_SESSION_ENTRIES <= 16383) by (unfold JNLAR_SESSION_ENTRIES; lia).
  unfold nla_parse_k. rewrite (attributes_blk1 h) by (try apply (flag_range h flag_u _ (flagger_u h) T); lia).
  cbn [parse_each_k]. rewrite (nla_type_flag h flag_u _ data (flagger_u h) T).
  change ((JNLAR_SESSION_ENTRIES =? 0) || (JNLAR_MAX <? JNLAR_SESSION_ENTRIES)) with false. change (jool_policy JNLAR_SESSION_ENTRIES) with PNested. cbn iota.
  assert (V : validate_k h PNested (Attr (flag_u JNLAR_SESSION_ENTRIES) data) = (zlen data =? 0) || (4 <=? zlen data)).
  { unfold validate_k. cbn [a_data]. destruct (h_strict h) eqn:E; [|reflexivity]. rewrite (flag_nested h flag_u _ data (flagger_u h) T E). reflexivity. }
  rewrite V. destruct (_ || _); reflexivity.
Qed.

Lemma received : forall h u iname pool6 c s now als data, ready u iname -> zlen data <= 2048 -> zlen data = 0 \/ 4 <= zlen data ->
  receive h u iname true pool6 c s now als data =
    (let! r := joold_sync pool6 c s now (lend als (map a_data (fst (attributes h data)))) in Ok (Some r)).
Proof.
  intros h u iname pool6 c s now als data R D Z. unfold receive, netsocket_listen.
  rewrite firstn_all2 by (unfold JOOLD_MAX_PAYLOAD; unfold zlen in D; lia).
  rewrite (handed h u iname data R D). unfold handle_joold_add. rewrite f_rest by (destruct R as (_ & _ & L & _); lia).
  rewrite (parsed h data D). replace ((zlen data =? 0) || (4 <=? zlen data)) with true by (symmetry; apply orb_true_iff; lia).
  reflexivity.
Qed.

(** ** Sessions arrive *)

Lemma same_order : forall h h' ty d, h_be h = h_be h' -> blk h ty d = blk h' ty d.
Proof. intros h h' ty d E. unfold blk, host_octets. rewrite E. reflexivity. Qed.
Lemma same_wire : forall h h' d now l, h_be h = h_be h' -> wire h d now l = wire h' d now l.
Proof. intros h h' d now l E. induction l as [|x l IH]; [reflexivity|]. cbn [wire flat_map]. fold (wire h d now l) (wire h' d now l). rewrite (same_order h h' _ _ E), IH. reflexivity. Qed.

Lemma wire_attributes : forall h d now l, map a_data (fst (attributes h (wire h d now l))) = map (fun x => put_session d now (fst x) (snd x)) l.
Proof.
  intros h d now l. induction l as [|x l IH]; [rewrite attributes_nil; reflexivity|]. cbn [wire flat_map]. fold (wire h d now l).
  rewrite (attributes_blk h) by (unfold zlen; try rewrite put_length; unfold JNLAL_ENTRY; lia). cbn [fst map a_data]. rewrite IH. reflexivity.
Qed.

Lemma sync_added : forall pool6 c d now1 now2 l s als,
  Forall (fun x => good_session pool6 (fst x) (snd x) /\ e_timer (snd x) <> T_SYN4 /\ left_ms d now1 (snd x) < 2^31) l -> 1 <= d -> 1 <= c_hz c -> 0 <= now1 < 2^64 ->
  exists l', Forall2 (arrives c d now1 now2) l l' /\
    joold_sync pool6 c s now2 (lend als (map (fun x => put_session d now1 (fst x) (snd x)) l)) = add_all c s now2 (lend als l').
Proof.
  intros pool6 c d now1 now2 l s als F D H N.
  assert (X : exists l', Forall2 (fun x y => arrives c d now1 now2 x y /\ get_session pool6 c now2 (put_session d now1 (fst x) (snd x)) = Ok (Some y)) l l').
  { induction F as [|[p e] l (G & T & R) F (l' & IH)]; [exists []; constructor|].
    destruct (C30_round_trip_partial pool6 p e c d now1 now2 G T D H N R) as (e' & E & S & ST & w & W1 & W2 & _).
    exists ((p, e') :: l'). constructor; [|exact IH]. split; [|exact E]. split; [reflexivity|]. split; [exact S|]. split; [exact ST|].
    exists w. split; [exact W1|exact W2]. }
  destruct X as (l' & X). exists l'. split.
  { clear - X. induction X as [|x y l l' (A & _) X IH]; constructor; assumption. }
  clear F. revert s als. induction X as [|x [p e'] l l' (_ & E) X IH]; intros s als; [reflexivity|].
  cbn [map lend joold_sync add_all]. rewrite E. cbn [bind].
  destruct (bib_add_session c p (get_table s p) e' now2 (hd [] als)) as [[[r t] evs]| |]; [|reflexivity|reflexivity]. cbn [bind].
  rewrite IH. reflexivity.
Qed.

(** Sessions that fit in a message, and whose V4 INIT timer is not the one in use, reach the other machine, each once and in order, and with
    what they have left to live. The machines have the same byte order; the datagram is not lost. Missing: machines of different order
    ([C95_order_refuted]) and the sessions of [C30_syn_refuted]. *)
Theorem C95_arrive_partial : forall h h' u u' iname iname' cap version pool6 c d now1 now2 l s als,
  h_be h = h_be h' ->
  u_xt u = XT_NAT64 -> is_u32 version -> same_version (u_version u) version = true -> (length iname <= 15)%nat -> Forall (fun c => 32 <= c <= 127) iname ->
  ready u' iname' -> l <> [] -> 32 + 40 * zlen l <= cap <= 2080 ->
  Forall (fun x => good_session pool6 (fst x) (snd x) /\ e_timer (snd x) <> T_SYN4 /\ left_ms d now1 (snd x) < 2^31) l -> 1 <= d -> 1 <= c_hz c -> 0 <= now1 < 2^64 ->
  exists b datagram l', announce h cap version iname d now1 l = Some b /\ updated_entries_cb h u iname b = Got (Some datagram) /\
    Forall2 (arrives c d now1 now2) l l' /\
    receive h' u' iname' true pool6 c s now2 als datagram = (let! r := add_all c s now2 (lend als l') in Ok (Some r)).
Proof.
  intros h h' u u' iname iname' cap version pool6 c d now1 now2 l s als E X V SV L FI R N C F D H Nw.
  pose proof (zlen_nonneg _ l).
  assert (Zl : 1 <= zlen l) by (destruct l; [contradiction|unfold zlen; cbn [length]; lia]).
  destruct (sync_added pool6 c d now1 now2 l s als F D H Nw) as (l' & A & Y).
  exists (header version XT_NAT64 0 iname ++ blk h (flag_k h JNLAR_SESSION_ENTRIES) (wire h d now1 l)), (wire h d now1 l), l'.
  repeat split.
  - rewrite announced by (assumption || lia). replace (32 + 40 * zlen l <=? cap) with true by lia. reflexivity.
  - apply detached; assumption || lia.
  - exact A.
  - rewrite (same_wire h h' d now1 l E). rewrite received; [|exact R|rewrite zlen_wire; lia|right; rewrite zlen_wire; lia].
    rewrite wire_attributes, Y. reflexivity.
Qed.

(** ** Whatever comes from the network *)

Lemma skipn_add : forall A n m (l : list A), skipn n (skipn m l) = skipn (m + n) l.
Proof.
  intros A n m. induction m as [|m IH]; intros l; [reflexivity|]. destruct l; [destruct n; reflexivity|]. cbn [skipn Nat.add]. apply IH.
Qed.

Lemma first_attr_at : forall h l a rest, first_attr h l = Some (a, rest) ->
  host_number h (firstn 2 l) = 4 + zlen (a_data a) /\ 4 + zlen (a_data a) <= zlen l /\
  exists k, rest = skipn k l /\ 4 + zlen (a_data a) + zlen rest <= zlen l.
Proof.
  intros h l a rest E. unfold first_attr in E. destruct (_ || _ || _) eqn:B; [discriminate|].
  apply orb_false_iff in B. destruct B as (B & B3). apply orb_false_iff in B. destruct B as (B1 & B2).
  set (n := host_number h (firstn 2 l)) in *. remember (firstn (Z.to_nat (n - 4)) (skipn 4 l)) as x eqn:X. remember (skipn (Z.to_nat (n + padding n)) l) as y eqn:Y.
  injection E; intros <- <-. cbn [a_data].
  assert (Z : zlen x = n - 4).
  { rewrite X. unfold zlen in *. rewrite firstn_length, skipn_length. lia. }
  rewrite Z. split; [lia|]. split; [lia|]. exists (Z.to_nat (n + padding n)). split; [exact Y|].
  rewrite Y. unfold zlen in *. rewrite skipn_length. unfold padding. pose proof (Z.mod_pos_bound (- n) 4 ltac:(lia)). lia.
Qed.

Definition heavy (a : attr) : bool := 36 <=? zlen (a_data a).

Lemma each_attr_at : forall h f l,
  (forall a, In a (fst (each_attr h f l)) -> exists k, host_number h (firstn 2 (skipn k l)) = 4 + zlen (a_data a) /\ Z.of_nat k + (4 + zlen (a_data a)) <= zlen l) /\
  40 * zlen (filter heavy (fst (each_attr h f l))) <= zlen l.
Proof.
  intros h f. induction f as [|f IH]; intros l; cbn [each_attr].
  - split; [intros a []|]. pose proof (zlen_nonneg _ l). cbn [fst filter]. change (@zlen attr []) with 0. lia.
  - destruct (first_attr h l) as [(a, rest)|] eqn:E.
    + destruct (first_attr_at h l a rest E) as (H1 & H2 & k & K & H3). specialize (IH rest). destruct (each_attr h f rest) as (as_, lft). cbn [fst] in *. destruct IH as (I1 & I2).
      split.
      * intros b [<-|I]; [exists 0%nat; split; [exact H1|lia]|]. destruct (I1 b I) as (j & J1 & J2).
        exists (k + j)%nat. rewrite K, skipn_add in J1. split; [exact J1|]. rewrite K in J2. unfold zlen in *. rewrite skipn_length in J2. lia.
      * cbn [filter]. unfold heavy at 1. destruct (36 <=? zlen (a_data a)) eqn:W; [|pose proof (zlen_nonneg _ (a_data a)); lia].
        unfold zlen at 1. cbn [length]. fold heavy. unfold zlen in I2 at 1. lia.
    + split; [intros a []|]. pose proof (zlen_nonneg _ l). cbn [fst filter]. change (@zlen attr []) with 0. lia.
Qed.

Lemma sync_any : forall pool6 c now (l : list attr) s als, Forall octets_ok l -> Forall (fun a => ~ 32 <= zlen (a_data a) <= 35) l ->
  exists l', Forall (fun x => plausible pool6 (fst x)) l' /\ (length l' <= length (filter heavy l))%nat /\
    joold_sync pool6 c s now (lend als (map a_data l)) = add_all c s now l'.
Proof.
  intros pool6 c now l. induction l as [|a l IH]; intros s als O N.
  - exists []. split; [constructor|]. split; [apply le_n|reflexivity].
  - inversion O as [|? ? Oa O']; subst. inversion N as [|? ? Na N']; subst. cbn [map lend].
    destruct (C30_any_bytes_partial pool6 c now (a_data a) Oa ltac:(unfold zlen in Na; lia)) as (r & E & P).
    destruct r as [(p, e)|].
    + assert (Hv : heavy a = true) by (unfold heavy, zlen; destruct P as (P & _); apply Z.leb_le; lia).
      assert (PL : plausible pool6 (p, e)) by (destruct P as (_ & P); exact P).
      destruct (bib_add_session c p (get_table s p) e now (hd [] als)) as [[[r t] evs]| |] eqn:B.
      * destruct (IH (set_table s p t) (tl als) O' N') as (l' & F & L & Y). exists ((p, e, hd [] als) :: l'). split; [constructor; [exact PL|exact F]|].
        split; [cbn [filter]; rewrite Hv; cbn [length]; lia|]. cbn [joold_sync add_all]. rewrite E. cbn [bind]. rewrite B. cbn [bind]. rewrite Y. reflexivity.
      * exists [(p, e, hd [] als)]. split; [constructor; [exact PL|constructor]|]. split; [cbn [filter]; rewrite Hv; cbn [length]; lia|].
        cbn [joold_sync add_all]. rewrite E. cbn [bind]. rewrite B. reflexivity.
      * exists [(p, e, hd [] als)]. split; [constructor; [exact PL|constructor]|]. split; [cbn [filter]; rewrite Hv; cbn [length]; lia|].
        cbn [joold_sync add_all]. rewrite E. cbn [bind]. rewrite B. reflexivity.
    + destruct (IH s (tl als) O' N') as (l' & F & L & Y). exists l'. split; [exact F|].
      split; [cbn [filter]; destruct (heavy a); cbn [length]; lia|]. cbn [joold_sync]. rewrite E. exact Y.
Qed.

(** The tables *)
Definition sane_db (s : db) : Prop := reachable UDP (d_udp s) /\ reachable TCP (d_tcp s) /\ reachable ICMP (d_icmp s).

Lemma reach_step : forall c p t o x t' evs, reachable p t -> wf_op o -> Bib_Model.step c p t o = Ok (x, t', evs) -> reachable p t'.
Proof.
  intros c p t o x t' evs (hs & es & W & R) Wo E. exists (hs ++ [(c, o)]), (es ++ evs).
  split; [apply Forall_app; split; [exact W|constructor; [exact Wo|constructor]]|].
  rewrite run_app, R. cbn [bind fst snd Bib_Model.run]. rewrite E. cbn [bind fst snd]. rewrite app_nil_r. reflexivity.
Qed.

Lemma add_all_ok : forall c now l s, sane_db s -> Forall (fun x => fst (fst x) <> OTHER) l ->
  exists s' evs, add_all c s now l = Ok (s', evs) /\ sane_db s'.
Proof.
  intros c now l. induction l as [|[[p e] al] l IH]; intros s R F; [exists s, []; split; [reflexivity|exact R]|].
  inversion F as [|? ? P F']; subst. cbn [fst] in P. cbn [add_all].
  assert (T : reachable p (get_table s p)) by (destruct R as (R1 & R2 & R3); destruct p; cbn [get_table]; try assumption; congruence).
  destruct (reach_inv p _ T) as (Iv & _).
  assert (X : exists y t evs, bib_add_session c p (get_table s p) e now al = Ok (y, t, evs)).
  { destruct (bib_add_session_ok c p (get_table s p) e now al Iv) as [E|(y & t & evs & f & evs2 & E & _)]; eauto. }
  destruct X as (y & t & evs & E).
  assert (T' : reachable p t).
  { apply (reach_step c p (get_table s p) (OSync e now al) (RRc y NoEntry) t evs T Logic.I). cbn [Bib_Model.step]. rewrite E. reflexivity. }
  rewrite E. cbn [bind].
  assert (R' : sane_db (set_table s p t)) by (destruct R as (R1 & R2 & R3); destruct p; cbn [set_table]; repeat split; assumption || congruence).
  destruct (IH _ R' F') as (s' & evs' & E' & S'). rewrite E'. cbn [bind]. eauto.
Qed.

(** Whatever octets reach the daemon, the machine does well: at most 51 sessions are added, and all of them are plausible; or the datagram has
    1 to 3 octets and is refused; or an attribute of it is said to have 36 to 39 octets (its header included). Missing: the latter are
    read beyond their end ([C95_short_refuted]). *)
Theorem C95_any_partial : forall h u iname pool6 c s now als datagram, ready u iname -> Forall is_u8 datagram -> sane_db s ->
  let data := firstn 2048 datagram in
  (exists k n, 36 <= n <= 39 /\ host_number h (firstn 2 (skipn k data)) = n /\ Z.of_nat k + n <= zlen data) \/
  (1 <= zlen data <= 3 /\ receive h u iname true pool6 c s now als datagram = Ok None) \/
  (exists l s' evs, Forall (fun x => plausible pool6 (fst x)) l /\ 40 * zlen l <= zlen data /\ add_all c s now l = Ok (s', evs) /\
    receive h u iname true pool6 c s now als datagram = Ok (Some (s', evs)) /\ sane_db s').
Proof.
  intros h u iname pool6 c s now als datagram R U SD data.
  assert (D : zlen data <= 2048) by (unfold data, zlen; rewrite firstn_length; lia).
  assert (Ud : Forall is_u8 data) by (apply Forall_firstn'; exact U).
  assert (Q : receive h u iname true pool6 c s now als datagram = receive h u iname true pool6 c s now als data).
  { unfold receive, netsocket_listen, JOOLD_MAX_PAYLOAD. fold data. rewrite (firstn_all2 data) by (unfold zlen in D; lia). reflexivity. }
  destruct (Z.eq_dec (zlen data) 0) as [Z0|Z0]; [|destruct (Z_lt_dec (zlen data) 4) as [Z4|Z4]].
  2: { right. left. pose proof (zlen_nonneg _ data). split; [lia|]. rewrite Q. unfold receive, netsocket_listen.
       rewrite firstn_all2 by (unfold JOOLD_MAX_PAYLOAD; unfold zlen in D; lia).
       rewrite (handed h u iname data R D). unfold handle_joold_add. rewrite f_rest by (destruct R as (_ & _ & L & _); lia).
       rewrite (parsed h data D). replace ((zlen data =? 0) || (4 <=? zlen data)) with false by (symmetry; apply orb_false_iff; lia). reflexivity. }
  all: assert (ZZ : zlen data = 0 \/ 4 <= zlen data) by lia.
  all: destruct (each_attr_at h (length data) data) as (A1 & A2); fold (attributes h data) in A1, A2.
  all: destruct (Exists_dec (fun a => 32 <= zlen (a_data a) <= 35) (fst (attributes h data))) as [X|X];
    [intros a; destruct (Z_le_dec 32 (zlen (a_data a))); [destruct (Z_le_dec (zlen (a_data a)) 35); [left; lia|right; lia]|right; lia]| |].
  1, 3: left; apply Exists_exists in X; destruct X as (a & I & X); destruct (A1 a I) as (k & K1 & K2); exists k, (4 + zlen (a_data a)); repeat split; assumption || lia.
  all: right; right; rewrite Q, (received h u iname pool6 c s now als data R D ZZ).
  all: destruct (sync_any pool6 c now (fst (attributes h data)) s als (attributes_ok h data Ud)) as (l & F & L & Y);
    [apply Forall_forall; intros a I C; apply X, Exists_exists; exists a; split; assumption|].
  all: destruct (add_all_ok c now l s SD) as (s' & evs & E & SD'); [eapply Forall_impl; [|exact F]; intros [[p e] al] PL; exact (proj1 PL)|].
  all: exists l, s', evs; split; [exact F|]; split; [unfold zlen in *; lia|]; split; [exact E|]; split; [rewrite Y, E; reflexivity|exact SD'].
Qed.

(** ** Cases *)

Definition little := Host false true.
Definition big := Host true true.
Definition daemon := Client 0x040101 XT_NAT64 4096 true.
Definition joolname : name := [108; 97].
Definition no_sessions : db := Db init_table init_table init_table.
Definition second : sentry := SE (2^125 + 6, 2000) (0x64ff9b * 2^96 + 0xc6336402, 53) (0xc0000201, 6000) (0xc6336402, 53) 0 T_EST 7000 300000 false.
Definition both : list (proto * sentry) := [(TCP, jsession); (UDP, second)].

Lemma daemon_ready : ready daemon joolname.
Proof. repeat split; try (vm_compute; congruence); repeat constructor; lia. Qed.
Lemma fresh_sane : sane_db no_sessions.
Proof. repeat split; exists [], []; (split; [constructor|reflexivity]). Qed.

Ltac good := unfold good_session, is_ta6, is_ta4; cbn [jsession second e_src6 e_dst6 e_src4 e_dst4 e_state e_timer fst snd];
  split; [split; [split; [discriminate|reflexivity]|lia]|]; split; [split; lia|]; split; [split; lia|]; split; [reflexivity|]; split; [reflexivity|]; split; [lia|reflexivity || discriminate].

(** Two sessions of different protocols, from one machine to another whose Linux is older; they get to be 112 octets, of which 80 travel. *)
Example C95_arrive_case : h_be little = h_be (Host false false) /\
  Forall (fun x => good_session wkp (fst x) (snd x) /\ e_timer (snd x) <> T_SYN4 /\ left_ms 1 12000 (snd x) < 2^31) both /\
  32 + 40 * zlen both <= 1500 <= 2080 /\
  exists b datagram s' evs, announce little 1500 0x040105 joolname 1 12000 both = Some b /\ zlen b = 112 /\
    updated_entries_cb little daemon joolname b = Got (Some datagram) /\ zlen datagram = 80 /\
    receive (Host false false) daemon joolname true wkp peer no_sessions 90000000 [] datagram = Ok (Some (s', evs)) /\
    (exists x, sess (d_tcp s') 0 = Some x /\ s_dst6 x = e_dst6 jsession /\ s_time x + 7200000 = 90000000 + 7195000) /\
    (exists x, sess (d_udp s') 0 = Some x /\ s_dst6 x = e_dst6 second /\ s_time x + 300000 = 90000000 + 295000).
Proof.
  split; [reflexivity|]. split.
  { constructor; [|constructor; [|constructor]]; (split; [good|split; [discriminate|reflexivity]]). }
  split; [split; discriminate|].
  eexists _, _, _, _. split; [vm_compute; reflexivity|]. split; [reflexivity|]. split; [vm_compute; reflexivity|]. split; [reflexivity|].
  split; [vm_compute; reflexivity|]. split; eexists; (split; [vm_compute; reflexivity|]); split; reflexivity.
Qed.

(** Noise after a session: the session is added, the rest is ignored. *)
Example C95_any_case : let datagram := wire little 1 12000 [(UDP, second)] ++ [200; 0; 1; 0; 7] in
  exists l s' evs, Forall (fun x => plausible wkp (fst x)) l /\ zlen l = 1 /\ add_all peer no_sessions 90000000 l = Ok (s', evs) /\
    receive little daemon joolname true wkp peer no_sessions 90000000 [] datagram = Ok (Some (s', evs)) /\
    receive little daemon joolname true wkp peer no_sessions 90000000 [] [1; 2] = Ok None.
Proof.
  cbv zeta. exists [(UDP, SE (e_src6 second) (e_dst6 second) (e_src4 second) (e_dst4 second) 0 T_EST (90000000 + 295000 - 300000) 300000 false, [])].
  eexists _, _. split; [|split; [reflexivity|split; [vm_compute; reflexivity|split; vm_compute; reflexivity]]].
  constructor; [|constructor]. unfold plausible, is_ta6, is_ta4. cbn [second e_src6 e_dst6 e_src4 e_dst4 e_state e_timer e_stored fst snd].
  repeat split; try discriminate; try lia; reflexivity.
Qed.

(** The headers of the attributes travel in the byte order of the sender, though the sessions are in the network's: a machine of the other
    order finds no sessions, and does not complain. *)
Theorem C95_order_refuted : exists b datagram, Forall (fun x => good_session wkp (fst x) (snd x)) both /\
  announce big 1500 0x040105 joolname 1 12000 both = Some b /\ updated_entries_cb big daemon joolname b = Got (Some datagram) /\
  receive little daemon joolname true wkp peer no_sessions 90000000 [] datagram = Ok (Some (no_sessions, [])).
Proof.
  eexists _, _. split; [constructor; [good|constructor; [good|constructor]]|].
  split; [vm_compute; reflexivity|]. split; [vm_compute; reflexivity|]. vm_compute. reflexivity.
Qed.

(** A datagram of 36 octets makes the module read beyond the attribute. *)
Theorem C95_short_refuted : exists datagram, Forall is_u8 datagram /\ length datagram = 36%nat /\
  receive little daemon joolname true wkp peer no_sessions 90000000 [] datagram = UB.
Proof.
  exists ([36; 0; 1; 0] ++ repeat 0 32). split; [|split; [reflexivity|vm_compute; reflexivity]].
  apply Forall_app. split; [repeat constructor; lia|]. apply Forall_forall. intros x Hx. apply repeat_spec in Hx. subst x. unfold is_u8. lia.
Qed.

(** A request without the container (the daemon always writes one): a null pointer is dereferenced, unless synchronisation is disabled. *)
Theorem C95_absent_refuted : exists b, Forall is_u8 b /\ zlen b = 28 /\
  handle_joold_add little true wkp peer no_sessions 90000000 [] b = UB /\ handle_joold_add little false wkp peer no_sessions 90000000 [] b = Ok None.
Proof.
  exists (header 0x040101 XT_NAT64 0 joolname). split; [|split; [reflexivity|split; vm_compute; reflexivity]].
  vm_compute. repeat constructor; discriminate.
Qed.

Print Assumptions C95_arrive_partial.
Print Assumptions C95_any_partial.
Print Assumptions C95_order_refuted.
Print Assumptions C95_short_refuted.
Print Assumptions C95_absent_refuted.
