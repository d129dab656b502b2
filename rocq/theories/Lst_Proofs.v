Require Import Verif.Base Verif.Addr_Model Verif.Pool4_Model Verif.Bib_Model Verif.Glob_Model Verif.Inst_Model Verif.File_Model Verif.Nla_Model Verif.Nla_Spec Verif.Nla_Proofs
  Verif.Req_Model Verif.Req_Spec Verif.Req_Proofs Verif.Lst_Model Verif.Lst_Spec.
Local Ltac Zify.zify_post_hook ::= Z.div_mod_to_equations.

Section Wire.
Context (h : host).

(** ** What is written for an item *)

Definition e_attr (x : item * Z) : attr :=
  match fst x with
  | IEntry (EEam p6 p4) => Attr (flag_k h 1) (d_eam h (flag_k h) p6 p4)
  | IEntry (EDeny p) => Attr (flag_k h 1) (d_prefix4 h p)
  | IEntry (EPool4 m i g q p r) => Attr (flag_k h 1) (d_pool4 h (flag_k h) m i g q p r)
  | IEntry (EBib a b q s) => Attr (flag_k h 1) (d_bib h (flag_k h) a b q s)
  | ISession s => Attr (flag_k h 1) (d_session h (flag_k h) (us_src6 s) (us_dst6 s) (us_src4 s) (us_dst4 s) (us_proto s) (us_state s) (snd x) (us_dying s))
  | ISetting id (VU8 v) => Attr id (host_octets h 1 v)
  | ISetting id (VU32 v) => Attr id (host_octets h 4 v)
  | ISetting id (VPlateaus l) => Attr (flag_k h id) (d_plateaus h l)
  | ISetting id (VPrefix6 (Some len) (Some addr)) => Attr (flag_k h id) (d_prefix6 h (P6 addr len))
  | ISetting id (VPrefix4 (Some len) (Some addr)) => Attr (flag_k h id) (d_prefix4 h (P4 addr len))
  | ISetting id _ => Attr (flag_k h id) (d_none h)
  end.
Definition enc (x : item * Z) : list Z := blk h (a_type (e_attr x)) (a_data (e_attr x)).

Lemma serialize_ok : forall cap xt l x, fit_item xt l (fst x) -> writes cap (serialize h cap x) (enc x) /\ clean (serialize h cap x).
Proof.
  intros cap xt l [x t] F. cbn [fst] in F. unfold enc, e_attr, serialize. cbn [fst snd].
  destruct x as [e|s|id v].
  - destruct e as [p6 p4|p|m i g q p r|a b q s]; cbn [put_entry_k a_type a_data].
    + apply w_eam_k.
    + apply w_prefix4_k.
    + apply w_pool4_k.
    + apply w_bib_k.
  - cbn [a_type a_data]. apply w_session_k.
  - destruct l; try contradiction. destruct F as [[_ F] _]. destruct v as [v|v|v|len addr|len addr].
    + split; [apply put_writes|apply put_clean].
    + split; [apply put_writes|apply put_clean].
    + destruct F as (_ & N & _ & L). apply w_plateaus_k; [exact N|lia].
    + destruct F as (_ & [(l & a & -> & -> & _)|(-> & ->)]); [apply w_prefix6_k | apply w_none6_k].
    + destruct F as (_ & [(l & a & -> & -> & _)|(-> & ->)]); [apply w_prefix4_k | apply w_none4_k].
Qed.

Lemma enc_size : forall xt l x, fit_item xt l (fst x) -> zlen (enc x) = item_size (fst x) /\ zlen (a_data (e_attr x)) <= 512.
Proof.
  intros xt l [x t] F. cbn [fst] in F. unfold enc. rewrite zlen_blk. unfold e_attr. cbn [fst snd].
  destruct x as [e|s|id v].
  - destruct e as [p6 p4|p|m i g q p r|a b q s]; cbn [a_type a_data item_size entry_size];
      rewrite ?zlen_eam, ?zlen_prefix4, ?zlen_pool4, ?zlen_bib; split; (reflexivity || lia).
  - cbn [a_type a_data item_size]. rewrite zlen_session. split; (reflexivity || lia).
  - destruct l; try contradiction. destruct F as [[_ F] _]. destruct v as [v|v|v|len addr|len addr].
    + cbn [a_type a_data item_size]. rewrite zlen_host. split; (reflexivity || lia).
    + cbn [a_type a_data item_size]. rewrite zlen_host. split; (reflexivity || lia).
    + destruct F as (_ & N & _ & L). cbn [a_type a_data item_size]. rewrite zlen_plateaus. unfold padding. lia.
    + destruct F as (_ & [(l & a & -> & -> & _)|(-> & ->)]); cbn [a_type a_data item_size]; rewrite ?zlen_prefix6, ?zlen_none; split; (reflexivity || lia).
    + destruct F as (_ & [(l & a & -> & -> & _)|(-> & ->)]); cbn [a_type a_data item_size]; rewrite ?zlen_prefix4, ?zlen_none; split; (reflexivity || lia).
Qed.

Lemma size_positive : forall x, 0 < item_size x.
Proof.
  intros [e|s|id v]; [destruct e; reflexivity|reflexivity|].
  destruct v as [v|v|v|len addr|len addr]; cbn [item_size]; try lia; [pose proof (zlen_nonneg _ v); lia| |]; destruct addr; lia.
Qed.

Lemma serialize_each_ok : forall cap xt l items b, Forall (fun x => fit_item xt l (fst x)) items -> zlen b <= cap ->
  serialize_each h cap items b =
  (b ++ flat_map enc (firstn (fits (cap - zlen b) (map fst items)) items), (fits (cap - zlen b) (map fst items) <? length items)%nat).
Proof.
  intros cap xt l items. induction items as [|x items IH]; intros b F R; cbn [serialize_each map fits].
  - cbn. rewrite app_nil_r. reflexivity.
  - inversion F as [|? ? F1 F2]; subst. destruct (serialize_ok cap xt l x F1) as [[M W] C]. destruct (enc_size xt l x F1) as [Z _]. specialize (W b).
    rewrite Z in W. destruct (item_size (fst x) <=? cap - zlen b) eqn:E.
    + replace (zlen b + item_size (fst x) <=? cap) with true in W by lia. rewrite W. rewrite IH; [|exact F2|rewrite zlen_app, Z; lia].
      rewrite zlen_app, Z. replace (cap - (zlen b + item_size (fst x))) with (cap - zlen b - item_size (fst x)) by lia.
      cbn [firstn flat_map length]. rewrite <- app_assoc. f_equal.
    + replace (zlen b + item_size (fst x) <=? cap) with false in W by lia. destruct W as [z W]. rewrite W. rewrite (C _ _ W). cbn [firstn flat_map length]. rewrite app_nil_r. reflexivity.
Qed.

(** ** What is read *)

Lemma setting_id : forall xt id v, fit_setting xt id v -> 1 <= id <= 32. Proof. exact setting_range. Qed.

Lemma e_type : forall xt l x, fit_item xt l (fst x) ->
  0 <= a_type (e_attr x) < 65536 /\ nla_type (e_attr x) = match fst x with ISetting id _ => id | _ => 1 end.
Proof.
  intros xt l [x t] F. cbn [fst] in F.
  assert (A : forall ty d, 1 <= ty <= 32 -> 0 <= a_type (Attr (flag_k h ty) d) < 65536 /\ nla_type (Attr (flag_k h ty) d) = ty).
  { intros ty d R. split; [apply (flag_range h (flag_k h) ty (or_introl eq_refl)); lia|apply (nla_type_flag h (flag_k h) ty d (or_introl eq_refl)); lia]. }
  assert (B : forall ty d, 1 <= ty <= 32 -> 0 <= a_type (Attr ty d) < 65536 /\ nla_type (Attr ty d) = ty).
  { intros ty d R. split; [cbn; lia|apply nla_type_plain; lia]. }
  unfold e_attr. cbn [fst snd]. destruct x as [e|s|id v].
  - destruct e as [p6 p4|p|m i g q p r|a b q s]; apply A; lia.
  - apply A; lia.
  - destruct l; try contradiction. destruct F as [F _]. pose proof (setting_id _ _ _ F) as R. destruct v as [v|v|v|[len|] [addr|]|[len|] [addr|]]; auto.
Qed.

Lemma attrs_of : forall xt l items, Forall (fun x => fit_item xt l (fst x)) items -> attributes h (flat_map enc items) = (map e_attr items, []).
Proof.
  intros xt l items F. induction F as [|x items F1 F2 IH]; [reflexivity|]. cbn [flat_map map]. unfold enc at 1.
  destruct (e_type xt l x F1) as [R _]. destruct (enc_size xt l x F1) as [_ Z].
  rewrite attributes_blk by lia. rewrite IH. cbn [fst snd]. destruct (e_attr x); reflexivity.
Qed.

Lemma validate_ok : forall xt l items, l <> LGlobals -> Forall (fun x => fit_item xt l (fst x)) items -> jnla_validate_list h (flat_map enc items) struct_list_policy = Got tt.
Proof.
  intros xt l items NG F. unfold jnla_validate_list, nla_parse_u. rewrite (attrs_of xt l items F). cbn [fst].
  assert (T : Forall (fun a => nla_type a = 1) (map e_attr items)).
  { apply Forall_map. eapply Forall_impl; [|exact F]. intros [x t] G. cbn [fst] in G. destruct (e_type xt l (x, t) G) as [_ ->]. cbn [fst]. destruct x; [reflexivity|reflexivity|].
    destruct l; try contradiction. }
  assert (P : forall as_ t, Forall (fun a => nla_type a = 1) as_ -> exists t', parse_each_u JNLAL_MAX struct_list_policy as_ t = Got t').
  { intros as_. induction as_ as [|a as_ IH]; intros t G; [eexists; reflexivity|]. inversion G as [|? ? G1 G2]; subst. cbn [parse_each_u]. rewrite G1.
    change (JNLAL_MAX <? 1) with false. cbn [struct_list_policy assoc]. change (1 =? JNLAL_ENTRY) with true. cbn [validate_u]. apply IH. exact G2. }
  destruct (P _ empty T) as [t ->]. cbn [rbind]. replace (forallb _ _) with true; [reflexivity|]. symmetry. apply forallb_forall. intros a A.
  rewrite Forall_forall in T. rewrite (T a A). reflexivity.
Qed.

Lemma kind_numbers : forall xt id v, xt = XT_SIIT \/ xt = XT_NAT64 -> kind_ok (Glob_Model.policy xt id) v = true ->
  1 <= id <= 32 ->
  match v with
  | VU8 _ => is_u32_setting id = false /\ existsb (Z.eqb id) [2; 8; 12; 13] = false
  | VU32 _ => is_u32_setting id = true /\ existsb (Z.eqb id) [2; 8; 12; 13] = false
  | _ => True
  end.
Proof.
  intros xt id v X H R.
  assert (G : forall id, In id (map Z.of_nat (seq 1 32)) ->
    (forall x, match Glob_Model.policy x id with
    | Some NLA_U8 => is_u32_setting id = false /\ existsb (Z.eqb id) [2; 8; 12; 13] = false
    | Some NLA_U32 => is_u32_setting id = true /\ existsb (Z.eqb id) [2; 8; 12; 13] = false
    | _ => True end)).
  { clear. intros id H x. cbn in H. repeat (destruct H as [<-|H]; [unfold Glob_Model.policy; cbn; destruct (x =? XT_SIIT); cbn; auto|]). destruct H. }
  specialize (G id). assert (J : In id (map Z.of_nat (seq 1 32))).
  { apply in_map_iff. exists (Z.to_nat id). split; [lia|apply in_seq; lia]. }
  specialize (G J xt). destruct v, (Glob_Model.policy xt id) as [[]|]; try discriminate H; auto.
Qed.

Lemma read_ok : forall xt l x, xt = XT_SIIT \/ xt = XT_NAT64 -> fit_item xt l (fst x) -> read_item h l (e_attr x) = Got (Some (fst x)).
Proof.
  intros xt l [x t] X F. pose proof (e_type xt l (x, t) F) as [_ TY]. cbn [fst] in *. unfold read_item.
  destruct l, x as [e|s|id v]; try contradiction; unfold e_attr in *; cbn [fst snd] in *.
  - destruct F as [H F]. destruct e; try discriminate H. cbn in F. cbn [get_entry_u]. rewrite r_eam_u by (exact (or_introl eq_refl) || apply F). reflexivity.
  - destruct F as [H F]. destruct e; try discriminate H. cbn in F. cbn [get_entry_u]. rewrite r_prefix4_u by apply F. reflexivity.
  - destruct F as [F H]. destruct e; try contradiction. cbn [get_entry_u]. rewrite r_pool4_u by (exact (or_introl eq_refl) || exact F). reflexivity.
  - destruct F as [F H]. destruct e; try contradiction. cbn [get_entry_u]. rewrite r_bib_u by (exact (or_introl eq_refl) || exact F). reflexivity.
  - destruct s. cbn. rewrite r_session_u by (exact (or_introl eq_refl) || exact F). reflexivity.
  - rewrite TY. destruct F as [F B]. pose proof (setting_id _ _ _ F) as R. destruct F as [KO F].
    replace ((id <? 1) || (32 <? id)) with false by lia. pose proof (kind_numbers xt id v X KO R) as N. unfold nl2raw_u.
    destruct v as [v|v|v|len addr|len addr].
    + destruct N as [N1 N2]. cbn [existsb] in N2. apply orb_false_iff in N2. destruct N2 as [N2 N3]. apply orb_false_iff in N3. destruct N3 as [N3 N4].
      apply orb_false_iff in N4. destruct N4 as [N4 N5]. apply orb_false_iff in N5. destruct N5 as [N5 _].
      unfold JNLAG_POOL6, JNLAG_POOL6791V6, JNLAG_POOL6791V4, JNLAG_PLATEAUS. rewrite N1, N2, N3, N4, N5. cbn [orb].
      cbn in F. destruct (is_u8_setting id) eqn:U.
      * rewrite get_host by (cbn; unfold is_u8 in F; lia). reflexivity.
      * assert (BS : boolean_setting id).
        { unfold boolean_setting. unfold is_u8_setting, JNLAG_TOS, JNLAG_HAIRPIN_MODE, JNLAG_F_ARGS in U. cbn [existsb is_u32_setting] in N1. unfold is_u32_setting in N1. cbn [existsb] in N1. cbn [In]. lia. }
        destruct (B BS) as [E|E]; injection E as ->; rewrite get_host by (cbn; lia); reflexivity.
    + destruct N as [N1 N2]. cbn [existsb] in N2. apply orb_false_iff in N2. destruct N2 as [N2 N3]. apply orb_false_iff in N3. destruct N3 as [N3 N4].
      apply orb_false_iff in N4. destruct N4 as [N4 N5]. apply orb_false_iff in N5. destruct N5 as [N5 _].
      unfold JNLAG_POOL6, JNLAG_POOL6791V6, JNLAG_POOL6791V4, JNLAG_PLATEAUS. rewrite N1, N2, N3, N4, N5. cbn [orb].
      rewrite get_host by (cbn; unfold is_u32 in F; lia). reflexivity.
    + destruct F as (-> & NE & FV & L). cbn. rewrite r_plateaus_u by assumption. reflexivity.
    + destruct F as ([->| ->] & [(l & a & -> & -> & WT)|(-> & ->)]); cbn -[nla_get_prefix6]; rewrite ?r_prefix6_u, ?r_none6_u by exact WT; reflexivity.
    + destruct F as (-> & [(l & a & -> & -> & WT)|(-> & ->)]); cbn -[nla_get_prefix4]; rewrite ?r_prefix4_u, ?r_none4_u by exact WT; reflexivity.
Qed.

Lemma read_items_ok : forall xt l items, xt = XT_SIIT \/ xt = XT_NAT64 -> Forall (fun x => fit_item xt l (fst x)) items ->
  read_items h l (map e_attr items) = Got (map fst items, true).
Proof.
  intros xt l items X F. induction F as [|x items F1 F2 IH]; [reflexivity|]. cbn [map read_items]. rewrite (read_ok xt l x X F1), IH. reflexivity.
Qed.

(** ** What is asked *)

Definition fit_last (xt : Z) (l : listing) (last : option item) : Prop := match last with None => True | Some x => fit_item xt l x end.
Definition d_asession (s : usession) : list Z :=
  blk h (flag_u JNLASE_SRC6) (d_taddr6 h (us_src6 s)) ++ blk h (flag_u JNLASE_DST6) (d_taddr6 h (us_dst6 s)) ++
  blk h (flag_u JNLASE_SRC4) (d_taddr4 h (us_src4 s)) ++ blk h (flag_u JNLASE_DST4) (d_taddr4 h (us_dst4 s)) ++
  blk h JNLASE_PROTO (host_octets h 1 (us_proto s)) ++ blk h JNLASE_STATE (host_octets h 1 (us_state s)) ++
  blk h JNLASE_EXPIRATION (host_octets h 4 (us_dying s)).
Lemma zlen_asession : forall s, zlen (d_asession s) = 128.
Proof. intros. unfold d_asession. rewrite !zlen_app, !zlen_blk, !zlen_taddr6, !zlen_taddr4, !zlen_host. reflexivity. Qed.
Lemma w_session_u : forall cap ty s, writes cap (nla_put_session h cap ty (us_src6 s) (us_dst6 s) (us_src4 s) (us_dst4 s) (us_proto s) (us_state s) (us_dying s)) (blk h (flag_u ty) (d_asession s)).
Proof.
  intros. apply nest_u_writes; [|rewrite zlen_asession; lia|rewrite zlen_asession; lia].
  do 2 (apply andthen_writes; [apply w_taddr6_u|]). do 2 (apply andthen_writes; [apply w_taddr4_u|]).
  do 2 (apply andthen_writes; [apply put_writes|]). apply put_writes.
Qed.

(** The attributes of a request *)
Definition a_proto (q : Z) : attr := Attr 11 (host_octets h 1 q).
Definition ask_attrs (l : listing) (last : option item) : list attr :=
  match l, last with
  | LEamt, Some (IEntry (EEam _ p4)) => [Attr (flag_u 8) (d_prefix4 h p4)]
  | LDeny, Some (IEntry (EDeny p)) => [Attr (flag_u 8) (d_prefix4 h p)]
  | LPool4 _, Some (IEntry (EPool4 m i g q p r)) => [Attr (flag_u 8) (d_pool4 h flag_u m i g q p r)]
  | LBib _, Some (IEntry (EBib a b q s)) => [Attr (flag_u 8) (d_bib h flag_u a b q s)]
  | (LPool4 q | LBib q), _ => [a_proto q]
  | LSession q, Some (ISession s) => [a_proto q; Attr (flag_u 8) (d_asession s)]
  | LSession q, _ => [a_proto q]
  | LGlobals, Some (ISetting id _) => [Attr 9 (host_octets h 1 id)]
  | _, _ => []
  end.
Definition blocks (l : list attr) : list Z := flat_map (fun a => blk h (a_type a) (a_data a)) l.

Lemma ask_ok : forall cap xt l last b, fit_last xt l last -> zlen b + 200 <= cap -> ask h cap l last b = Put (b ++ blocks (ask_attrs l last)).
Proof.
  intros cap xt l last b F R.
  assert (N : forall w x, writes cap w x -> zlen x <= 200 -> w b = Put (b ++ x ++ [])).
  { intros w x W L. rewrite app_nil_r. apply (written cap w x b W). lia. }
  assert (D : done b = Put (b ++ [])) by (rewrite app_nil_r; reflexivity).
  assert (P : forall q, zlen (blk h 11 (host_octets h 1 q)) = 8) by (intros; rewrite zlen_blk, zlen_host; reflexivity).
  unfold blocks. destruct l, last as [[e|s|id v]|]; cbn [fit_last fit_item] in F; try contradiction; cbn [ask ask_attrs flat_map a_type a_data a_proto]; try exact D.
  - destruct F as [H F]. destruct e; try discriminate H. cbn [flat_map a_type a_data]. apply N; [apply w_prefix4_u|]. rewrite zlen_blk, zlen_prefix4. unfold padding. lia.
  - destruct F as [H F]. destruct e; try discriminate H. cbn [flat_map a_type a_data]. apply N; [apply w_prefix4_u|]. rewrite zlen_blk, zlen_prefix4. unfold padding. lia.
  - destruct F as [F H]. destruct e; try contradiction. cbn [flat_map a_type a_data put_entry_u]. apply N; [apply w_pool4_u|]. rewrite zlen_blk, zlen_pool4. unfold padding. lia.
  - apply N; [apply put_writes|rewrite P; lia].
  - destruct F as [F H]. destruct e; try contradiction. cbn [flat_map a_type a_data put_entry_u]. apply N; [apply w_bib_u|]. rewrite zlen_blk, zlen_bib. unfold padding. lia.
  - apply N; [apply put_writes|rewrite P; lia].
  - rewrite app_nil_r. apply written with (cap := cap); [apply andthen_writes; [apply put_writes|apply w_session_u]|].
    rewrite zlen_app, P, zlen_blk, zlen_asession. unfold padding. lia.
  - apply N; [apply put_writes|rewrite P; lia].
  - destruct F as [F _]. pose proof (setting_id _ _ _ F). replace (id =? 0) with false by lia. apply N; [apply put_writes|]. rewrite zlen_blk, zlen_host. unfold padding. lia.
Qed.

Definition root_of (l : list attr) : table := fold_left (fun t a => tset t (nla_type a) a) l empty.

Lemma ask_parsed : forall xt l last, fit_last xt l last -> nla_parse_k h JNLAR_MAX jool_policy (blocks (ask_attrs l last)) = Got (root_of (ask_attrs l last)).
Proof.
  intros xt l last F.
  assert (G : forall d, 4 <= zlen d <= 65531 -> nla_parse_k h JNLAR_MAX jool_policy (blocks [Attr (flag_u 8) d]) = Got (root_of [Attr (flag_u 8) d])).
  { intros d L. unfold blocks. cbn [flat_map a_type a_data]. rewrite app_nil_r. rewrite root_nested by (lia || reflexivity). unfold root_of. cbn [fold_left].
    rewrite (nla_type_flag h flag_u 8 d (flagger_u h)) by lia. reflexivity. }
  assert (U : forall ty v, ty = 9 \/ ty = 11 -> nla_parse_k h JNLAR_MAX jool_policy (blocks [Attr ty (host_octets h 1 v)]) = Got (root_of [Attr ty (host_octets h 1 v)])).
  { intros ty v X. unfold blocks. cbn [flat_map a_type a_data]. rewrite app_nil_r. unfold nla_parse_k. rewrite (attributes_blk1 h) by (rewrite ?zlen_host; lia).
    rewrite (step_k h _ _ ty); [unfold root_of; cbn [fold_left]; rewrite nla_type_plain by lia; reflexivity|apply nla_type_plain; lia|unfold JNLAR_MAX; lia|].
    destruct X as [->| ->]; apply (val_u8_k h); lia. }
  destruct l, last as [[e|s|id v]|]; cbn [fit_last fit_item] in F; try contradiction; cbn [ask_attrs]; try apply root_empty; try (apply U; lia).
  - destruct F as [H F]. destruct e; try discriminate H. apply G. rewrite zlen_prefix4. lia.
  - destruct F as [H F]. destruct e; try discriminate H. apply G. rewrite zlen_prefix4. lia.
  - destruct F as [F H]. destruct e; try contradiction. apply G. rewrite zlen_pool4. lia.
  - destruct F as [F H]. destruct e; try contradiction. apply G. rewrite zlen_bib. lia.
  - unfold blocks. cbn [flat_map a_type a_data a_proto]. rewrite app_nil_r. unfold nla_parse_k.
    rewrite (attrs2 h) by (rewrite ?zlen_host, ?zlen_asession; try lia; apply (flag_range h flag_u 8 (flagger_u h)); lia).
    rewrite (step_k h _ _ 11); [|apply nla_type_plain; lia|unfold JNLAR_MAX; lia|apply (val_u8_k h); lia].
    rewrite (step_k h _ _ 8).
    + cbn [parse_each_k rbind]. unfold root_of. cbn [fold_left]. rewrite (nla_type_flag h flag_u 8 (d_asession s) (flagger_u h)) by lia. unfold a_proto. rewrite (nla_type_plain 11) by lia. reflexivity.
    + apply (nla_type_flag h flag_u 8 _ (flagger_u h)). lia.
    + unfold JNLAR_MAX. lia.
    + apply (val_nested_k h flag_u 8 _ (flagger_u h)); [lia|]. rewrite zlen_asession. lia.
Qed.

Lemma offset_read : forall s, fit_session s -> parse_offset h (Attr (flag_u 8) (d_asession s)) = Got (us_src4 s, us_dst4 s).
Proof.
  intros s F. unfold parse_offset.
  assert (R : forall ty, 0 <= ty <= 16383 -> 0 <= flag_u ty < 65536) by (intros ty Q; apply (flag_range h flag_u ty (flagger_u h) Q)).
  assert (NT : forall ty d, 0 <= ty <= 16383 -> nla_type (Attr (flag_u ty) d) = ty) by (intros ty d Q; apply (nla_type_flag h flag_u ty d (flagger_u h) Q)).
  assert (A : attributes h (d_asession s) =
    ([Attr (flag_u 1) (d_taddr6 h (us_src6 s)); Attr (flag_u 2) (d_taddr6 h (us_dst6 s)); Attr (flag_u 3) (d_taddr4 h (us_src4 s)); Attr (flag_u 4) (d_taddr4 h (us_dst4 s));
      Attr 5 (host_octets h 1 (us_proto s)); Attr 6 (host_octets h 1 (us_state s)); Attr 8 (host_octets h 4 (us_dying s))], [])).
  { unfold d_asession. unfold JNLASE_SRC6, JNLASE_DST6, JNLASE_SRC4, JNLASE_DST4, JNLASE_PROTO, JNLASE_STATE, JNLASE_EXPIRATION.
    do 4 (rewrite attributes_blk by (rewrite ?zlen_taddr6, ?zlen_taddr4; try lia; apply R; lia); cbn [fst snd]).
    do 2 (rewrite attributes_blk by (rewrite ?zlen_host; lia); cbn [fst snd]). rewrite attributes_blk1 by (rewrite ?zlen_host; lia). reflexivity. }
  destruct F as (F1 & F2 & F3 & F4 & _).
  rewrite (nested_k h flag_u 8 _ JNLASE_MAX session_policy _
    (tset (tset (tset (tset (tset (tset (tset empty 1 (Attr (flag_u 1) (d_taddr6 h (us_src6 s)))) 2 (Attr (flag_u 2) (d_taddr6 h (us_dst6 s)))) 3 (Attr (flag_u 3) (d_taddr4 h (us_src4 s))))
      4 (Attr (flag_u 4) (d_taddr4 h (us_dst4 s)))) 5 (Attr 5 (host_octets h 1 (us_proto s)))) 6 (Attr 6 (host_octets h 1 (us_state s)))) 8 (Attr 8 (host_octets h 4 (us_dying s))))
    (flagger_u h) ltac:(lia) A).
  - cbn [rbind].
    change (tset _ 8 _ JNLASE_SRC4) with (Some (Attr (flag_u 3) (d_taddr4 h (us_src4 s)))).
    change (tset _ 8 _ JNLASE_DST4) with (Some (Attr (flag_u 4) (d_taddr4 h (us_dst4 s)))). cbv iota.
    rewrite (r_taddr4_k h flag_u 3 _ (flagger_u h) ltac:(lia) F3). cbn [rbind].
    rewrite (r_taddr4_k h flag_u 4 _ (flagger_u h) ltac:(lia) F4). cbn [rbind].
    reflexivity.
  - rewrite (step_k h _ _ 1) by (try (apply NT; lia); try (unfold JNLASE_MAX; lia); apply (val_nested_k h flag_u 1 _ (flagger_u h)); rewrite ?zlen_taddr6; lia).
    rewrite (step_k h _ _ 2) by (try (apply NT; lia); try (unfold JNLASE_MAX; lia); apply (val_nested_k h flag_u 2 _ (flagger_u h)); rewrite ?zlen_taddr6; lia).
    rewrite (step_k h _ _ 3) by (try (apply NT; lia); try (unfold JNLASE_MAX; lia); apply (val_nested_k h flag_u 3 _ (flagger_u h)); rewrite ?zlen_taddr4; lia).
    rewrite (step_k h _ _ 4) by (try (apply NT; lia); try (unfold JNLASE_MAX; lia); apply (val_nested_k h flag_u 4 _ (flagger_u h)); rewrite ?zlen_taddr4; lia).
    rewrite (step_k h _ _ 5) by (try (apply nla_type_plain; lia); try (unfold JNLASE_MAX; lia); apply (val_u8_k h); lia).
    rewrite (step_k h _ _ 6) by (try (apply nla_type_plain; lia); try (unfold JNLASE_MAX; lia); apply (val_u8_k h); lia).
    rewrite (step_k h _ _ 8) by (try (apply nla_type_plain; lia); try (unfold JNLASE_MAX; lia); apply (val_u32_k h); lia).
    reflexivity.
Qed.
End Wire.

(** ** The settings *)

Fixpoint ids_from (xt : Z) (metas : list (Z * Z)) (offset : Z) : list Z :=
  match metas with
  | [] => []
  | (id, mxt) :: metas =>
    if negb (bit_and mxt xt) then ids_from xt metas offset
    else if negb (offset =? 0) then ids_from xt metas (if id =? offset then 0 else offset)
    else id :: ids_from xt metas 0
  end.
Lemma settings_ids : forall xt g metas off, settings_from xt metas off g = map (fun id => ISetting id (raw2nl xt id g)) (ids_from xt metas off).
Proof.
  intros xt g metas. induction metas as [|[id m] metas IH]; intros off; [reflexivity|]. cbn [settings_from ids_from].
  destruct (negb (bit_and m xt)); [apply IH|]. destruct (negb (off =? 0)); [apply IH|]. cbn [map]. rewrite IH. reflexivity.
Qed.
Lemma ids_past : forall xt off, xt = XT_SIIT \/ xt = XT_NAT64 -> In off (0 :: setting_ids xt) -> ids_from xt metadata off = filter (fun id => off <? id) (setting_ids xt).
Proof. intros xt off [->| ->] H; cbn in H; repeat (destruct H as [<-|H]; [reflexivity|]); destruct H. Qed.
Lemma raw_value : forall xt id g, xt = XT_SIIT \/ xt = XT_NAT64 -> In id (setting_ids xt) -> raw2nl xt id g = setting_value id g.
Proof.
  intros xt id g [->| ->] H; cbn in H; repeat (destruct H as [<-|H]; [try reflexivity; cbn; repeat match goal with |- context [match ?x with C6 _ _ => _ end] => destruct x as [[] []] | |- context [match ?x with C4 _ _ => _ end] => destruct x as [[] []] end; reflexivity|]); destruct H.
Qed.
Lemma settings_ok : forall xt off g, xt = XT_SIIT \/ xt = XT_NAT64 -> In off (0 :: setting_ids xt) -> settings_from xt metadata off g = settings_past xt off g.
Proof.
  intros xt off g X H. rewrite settings_ids, ids_past by assumption. unfold settings_past. apply map_ext_in. intros id I. apply filter_In in I. destruct I as [I _].
  rewrite raw_value by assumption. reflexivity.
Qed.
Lemma setting_listed : forall xt id v, xt = XT_SIIT \/ xt = XT_NAT64 -> fit_setting xt id v -> In id (setting_ids xt).
Proof.
  intros xt id v X F. pose proof (setting_range _ _ _ F) as R. destruct F as [KO _].
  assert (J : In id (map Z.of_nat (seq 1 32))).
  { apply in_map_iff. exists (Z.to_nat id). split; [lia|apply in_seq; lia]. }
  destruct X as [->| ->]; cbn in J; repeat (destruct J as [<-|J]; [first [discriminate KO | cbn; tauto]|]); destruct J.
Qed.

Section Loop.
Context (h : host) {S I : Type} (K : kernel S I) (T : tables S I) (u : client) (w : answering).
Hypothesis N : normal K u w.

Lemma types : u_xt u = XT_SIIT \/ u_xt u = XT_NAT64.
Proof. destruct (n_type K u w N) as [[H _]|[H _]]; auto. Qed.

Lemma plain_all : forall A (g : A -> item * Z) (g' : A -> item) r, (forall a, fst (g a) = g' a) -> plain fst (all g r) = plain g' r.
Proof. intros A g g' [e|l] H; [reflexivity|]. cbn. rewrite map_map. f_equal. apply map_ext. exact H. Qed.

Lemma visited_ok : forall l last i s, fit_listing l -> fit_last (u_xt u) l last ->
  exists r, visited h K T l (u_xt u) (root_of (ask_attrs h l last)) i s = Got r /\ plain fst r = rest_of K T (u_xt u) l i last s.
Proof.
  intros l last i s FL F.
  assert (A : forall d, root_of [Attr (flag_u 8) d] = tset empty 8 (Attr (flag_u 8) d)).
  { intros d. unfold root_of. cbn [fold_left]. rewrite (nla_type_flag h flag_u 8 d (flagger_u h)) by lia. reflexivity. }
  assert (B : forall q, root_of [a_proto h q] = tset empty 11 (a_proto h q)).
  { intros q. unfold root_of, a_proto. cbn [fold_left]. rewrite nla_type_plain by lia. reflexivity. }
  assert (P : forall q, is_u8 q -> nla_get h 1 (a_proto h q) = Got q) by (intros q Q; apply get_host; cbn; unfold is_u8 in Q; lia).
  destruct l; cbn [visited rest_of].
  - destruct last as [[e|s'|id v]|]; cbn [fit_last fit_item] in F; try contradiction.
    + destruct F as [H F]. destruct e as [p6 p4|p|m it g q p r|a b q st]; try discriminate H. cbn [ask_attrs]. rewrite A.
      change (tset empty 8 (Attr (flag_u 8) (d_prefix4 h p4)) JNLAR_OFFSET) with (Some (Attr (flag_u 8) (d_prefix4 h p4))).
      cbn in F. rewrite (mandatory_k4 h flag_u (flagger_u h)) by (lia || apply F). cbn [rbind found]. eexists. split; [reflexivity|]. apply plain_all. reflexivity.
    + cbn [ask_attrs]. eexists. split; [reflexivity|]. apply plain_all. reflexivity.
  - destruct last as [[e|s'|id v]|]; cbn [fit_last fit_item] in F; try contradiction.
    + destruct F as [H F]. destruct e as [p6 p4|p|m it g q p r|a b q st]; try discriminate H. cbn [ask_attrs]. rewrite A.
      change (tset empty 8 (Attr (flag_u 8) (d_prefix4 h p)) JNLAR_OFFSET) with (Some (Attr (flag_u 8) (d_prefix4 h p))).
      cbn in F. rewrite (mandatory_k4 h flag_u (flagger_u h)) by (lia || apply F). cbn [rbind found]. eexists. split; [reflexivity|]. apply plain_all. reflexivity.
    + cbn [ask_attrs]. eexists. split; [reflexivity|]. apply plain_all. reflexivity.
  - destruct last as [[e|s'|id v]|]; cbn [fit_last fit_item] in F; try contradiction.
    + destruct F as [F H]. destruct e as [p6 p4|p|m it g q p r|a b q st]; try contradiction. cbn [ask_attrs]. rewrite A.
      change (tset empty 8 (Attr (flag_u 8) (d_pool4 h flag_u m it g q p r)) JNLAR_OFFSET) with (Some (Attr (flag_u 8) (d_pool4 h flag_u m it g q p r))). cbv iota.
      rewrite (r_pool4_k h flag_u (flagger_u h)) by (lia || exact F). cbn [found]. eexists. split; [reflexivity|]. subst q. apply plain_all. reflexivity.
    + cbn [ask_attrs]. rewrite B. change (tset empty 11 (a_proto h proto) JNLAR_OFFSET) with (@None attr). change (tset empty 11 (a_proto h proto) JNLAR_PROTO) with (Some (a_proto h proto)). cbv iota.
      rewrite P by exact FL. cbn [found]. eexists. split; [reflexivity|]. apply plain_all. reflexivity.
  - destruct last as [[e|s'|id v]|]; cbn [fit_last fit_item] in F; try contradiction.
    + destruct F as [F H]. destruct e as [p6 p4|p|m it g q p r|a b q st]; try contradiction. cbn [ask_attrs]. rewrite A.
      change (tset empty 8 (Attr (flag_u 8) (d_bib h flag_u a b q st)) JNLAR_OFFSET) with (Some (Attr (flag_u 8) (d_bib h flag_u a b q st))). cbv iota.
      rewrite (r_bib_k h flag_u (flagger_u h)) by (lia || exact F). cbn [found]. eexists. split; [reflexivity|]. subst q. apply plain_all. reflexivity.
    + cbn [ask_attrs]. rewrite B. change (tset empty 11 (a_proto h proto) JNLAR_OFFSET) with (@None attr). change (tset empty 11 (a_proto h proto) JNLAR_PROTO) with (Some (a_proto h proto)). cbv iota.
      rewrite P by exact FL. cbn [found]. eexists. split; [reflexivity|]. apply plain_all. reflexivity.
  - destruct last as [[e|s'|id v]|]; cbn [fit_last fit_item] in F; try contradiction.
    + cbn [ask_attrs].
      assert (R : root_of [a_proto h proto; Attr (flag_u 8) (d_asession h s')] = tset (tset empty 11 (a_proto h proto)) 8 (Attr (flag_u 8) (d_asession h s'))).
      { unfold root_of, a_proto. cbn [fold_left]. rewrite (nla_type_flag h flag_u 8 (d_asession h s') (flagger_u h)) by lia. rewrite (nla_type_plain 11) by lia. reflexivity. }
      rewrite R. set (tt := tset _ _ _). change (tt JNLAR_PROTO) with (Some (a_proto h proto)). change (tt JNLAR_OFFSET) with (Some (Attr (flag_u 8) (d_asession h s'))). cbv iota.
      rewrite P by exact FL. cbn [rbind]. rewrite offset_read by exact F. cbn [rbind found fst snd]. eexists. split; [reflexivity|]. apply plain_all. reflexivity.
    + cbn [ask_attrs]. rewrite B. change (tset empty 11 (a_proto h proto) JNLAR_OFFSET) with (@None attr). change (tset empty 11 (a_proto h proto) JNLAR_PROTO) with (Some (a_proto h proto)). cbv iota.
      rewrite P by exact FL. cbn [rbind found fst snd]. eexists. split; [reflexivity|]. apply plain_all. reflexivity.
  - assert (M : forall off, In off (0 :: setting_ids (u_xt u)) ->
      plain fst (inr (map numbered (settings_from (u_xt u) metadata off (k_globals K i s)))) = inr (settings_past (u_xt u) off (k_globals K i s))).
    { intros off O. cbn [plain]. rewrite map_map. rewrite settings_ok by (exact types || exact O). f_equal. rewrite <- (map_id (settings_past _ _ _)) at 2. apply map_ext. reflexivity. }
    destruct last as [[e|s'|id v]|]; cbn [fit_last fit_item] in F; try contradiction.
    + cbn [ask_attrs]. destruct F as [F _]. pose proof (setting_range _ _ _ F) as R.
      assert (Q : root_of [Attr 9 (host_octets h 1 id)] = tset empty 9 (Attr 9 (host_octets h 1 id))).
      { unfold root_of. cbn [fold_left]. rewrite nla_type_plain by lia. reflexivity. }
      rewrite Q. change (tset empty 9 (Attr 9 (host_octets h 1 id)) JNLAR_OFFSET_U8) with (Some (Attr 9 (host_octets h 1 id))). cbv iota.
      rewrite get_host by (cbn; lia). cbn [found]. eexists. split; [reflexivity|]. apply M. right. apply (setting_listed _ _ _ types F).
    + cbn [ask_attrs]. eexists. split; [reflexivity|]. apply M. left. reflexivity.
Qed.

Lemma refused_shown : forall l a e, response_handler h u a = Got (told w (Err e)) -> foreach_response h u l a = Got ([], Some (Failed (told w (Err e)))).
Proof.
  intros l a e. unfold response_handler, foreach_response, told.
  destruct (zlen a <? 28); [discriminate|]. destruct (negb (validate_joolnlhdr u a)); [discriminate|]. destruct (bit_and (hdr_flags a) FLAGS_ERROR); [|discriminate].
  intros ->. reflexivity.
Qed.

Lemma header_valid : forall fl n y, (length n <= 15)%nat -> validate_joolnlhdr u (header (u_version u) (u_xt u) fl n ++ y) = true.
Proof.
  intros fl n y L. unfold validate_joolnlhdr. rewrite f_magic, f_version, f_xt by (apply (n_version K u w N) || lia).
  destruct (list_eq_dec Z.eq_dec JOOLNL_HDR_MAGIC JOOLNL_HDR_MAGIC) as [_|X]; [|contradiction].
  unfold same_version. rewrite Z.eqb_refl. destruct types as [-> | ->]; reflexivity.
Qed.

Lemma page_read : forall l n items (more : bool), (length n <= 15)%nat -> Forall (fun x => fit_item (u_xt u) l (fst x)) items ->
  foreach_response h u l (header (u_version u) (u_xt u) (if more then 8 else 0) n ++ flat_map (enc h) items) = Got (map fst items, if more then None else Some Complete).
Proof.
  intros l n items more L F. unfold foreach_response. rewrite f_long, header_valid, f_flags, f_rest by lia. cbn [negb].
  replace (bit_and (if more then 8 else 0) FLAGS_ERROR) with false by (destruct more; reflexivity).
  assert (R : rbind (read_items h l (fst (attributes h (flat_map (enc h) items)))) (fun r => Got (fst r, if negb (snd r) then Some (Failed Nonsense) else if bit_and (if more then 8 else 0) FLAGS_M then None else Some Complete))
    = Got (map fst items, if more then None else Some Complete)).
  { rewrite (attrs_of h (u_xt u) l items F). cbn [fst]. rewrite (read_items_ok h (u_xt u) l items types F). cbn [rbind fst snd negb]. destruct more; reflexivity. }
  assert (V : l <> LGlobals -> jnla_validate_list h (flat_map (enc h) items) struct_list_policy = Got tt) by (intros G; apply (validate_ok h (u_xt u) l items G F)).
  destruct l; [rewrite V by discriminate|rewrite V by discriminate|rewrite V by discriminate|rewrite V by discriminate|rewrite V by discriminate|]; exact R.
Qed.

Lemma set_m : forall n y, (length n <= 15)%nat -> set_flag (header (u_version u) (u_xt u) 0 n ++ y) FLAGS_M = header (u_version u) (u_xt u) 8 n ++ y.
Proof.
  intros n y L. unfold set_flag, header. destruct (octets4 (u_version u)) as (a & b & c & d & ->). reflexivity.
Qed.

Lemma map_firstn : forall A B (f : A -> B) n l, map f (firstn n l) = firstn n (map f l).
Proof. intros A B f n. induction n as [|n IH]; intros [|x l]; cbn; [reflexivity|reflexivity|reflexivity|]. rewrite IH. reflexivity. Qed.

Lemma in_firstn : forall A (x : A) n l, In x (firstn n l) -> In x l.
Proof. intros A x n l H. rewrite <- (firstn_skipn n l). apply in_or_app. left. exact H. Qed.

Lemma answer_ok : forall n l last s, fit_name n -> fit_listing l -> fit_last (u_xt u) l last ->
  (forall r, rest_in K T (u_xt u) n l last s = inr r -> Forall (fit_item (u_xt u) l) r) ->
  exists a, serve_list h K T w true l (header (u_version u) (u_xt u) 0 (iname_of n) ++ blocks h (ask_attrs h l last)) s = Got (Some a) /\
    foreach_response h u l a = Got
      match rest_in K T (u_xt u) n l last s with
      | inl e => ([], Some (Failed (told w (Err e))))
      | inr r => let k := fits (a_cap w - 28) r in
        if (length r <=? k)%nat then (r, Some Complete)
        else match firstn k r with [] => ([], Some (Failed (told w (Err EINVAL)))) | _ => (firstn k r, None) end
      end.
Proof.
  intros n l last s FN FL F FR. destruct (fit_iname n FN) as [L P].
  assert (SIMPLE : forall e, exists a, jresponse_send_simple h w (header (u_version u) (u_xt u) 0 (iname_of n) ++ blocks h (ask_attrs h l last)) (Err e) = Some a /\
    foreach_response h u l a = Got ([], Some (Failed (told w (Err e))))).
  { intros e. destruct (answered h K u w N (iname_of n) 0 (blocks h (ask_attrs h l last)) (Err e) L ltac:(lia) eq_refl) as (a & A1 & A2). exists a. split; [exact A1|apply refused_shown; exact A2]. }
  unfold serve_list. rewrite f_long by lia. rewrite f_rest by lia. rewrite (ask_parsed h (u_xt u) l last F). cbn [rbind].
  rewrite (start_ok K u w N) by assumption. unfold rest_in in *.
  destruct (negb (bit_and (u_xt u) (listed_of l))). { destruct (SIMPLE EINVAL) as (a & A1 & A2). exists a. rewrite A1. split; [reflexivity|exact A2]. }
  replace (match iname_of n with [] => INAME_DEFAULT | _ :: _ => iname_of n end) with (name_of n) by (destruct n as [[|]|]; reflexivity).
  destruct (k_find K (name_of n) (u_xt u) s) as [e|i]. { destruct (SIMPLE e) as (a & A1 & A2). exists a. rewrite A1. split; [reflexivity|exact A2]. }
  destruct (n_memory K u w N) as [_ M]. destruct (n_room K u w N) as [_ C].
  unfold jresponse_init. rewrite M. replace (a_cap w <? 28) with false by lia. cbn [negb orb]. rewrite f_first by lia. rewrite f_xt.
  destruct (visited_ok l last i s FL F) as (r & V1 & V2). rewrite V1. cbn [rbind]. rewrite <- V2 in *. unfold jresponse_send_array.
  destruct r as [e|r]; cbn [plain] in *. { destruct (SIMPLE e) as (a & A1 & A2). exists a. rewrite A1. split; [reflexivity|exact A2]. }
  specialize (FR _ eq_refl). assert (FR' : Forall (fun x => fit_item (u_xt u) l (fst x)) r).
  { apply Forall_forall. intros x X. rewrite Forall_forall in FR. apply FR. apply in_map. exact X. }
  assert (H28 : zlen (header (u_version u) (u_xt u) 0 (iname_of n)) = 28) by (unfold zlen; rewrite header_length by lia; reflexivity).
  rewrite (serialize_each_ok h (a_cap w) (u_xt u) l r _ FR') by lia. rewrite H28.
  set (k := fits (a_cap w - 28) (map fst r)). cbv zeta. rewrite map_length.
  assert (FK : Forall (fun x => fit_item (u_xt u) l (fst x)) (firstn k r)).
  { apply Forall_forall. intros x X. rewrite Forall_forall in FR'. apply FR'. apply (in_firstn _ x k). exact X. }
  destruct (k <? length r)%nat eqn:E.
  - apply Nat.ltb_lt in E. replace (length r <=? k)%nat with false by (symmetry; apply Nat.leb_gt; lia).
    rewrite <- map_firstn. destruct (firstn k r) as [|x p] eqn:FE.
    + cbn [flat_map]. rewrite app_nil_r, Nat.eqb_refl. cbn [map]. destruct (SIMPLE EINVAL) as (a & A1 & A2). exists a. rewrite A1. split; [reflexivity|exact A2].
    + replace (_ =? _)%nat with false.
      2:{ symmetry. apply Nat.eqb_neq. rewrite app_length. cbn [flat_map]. rewrite app_length. inversion FK as [|? ? F1 F2]; subst.
          destruct (enc_size h (u_xt u) l x F1) as [Z _]. pose proof (size_positive (fst x)). unfold zlen in Z. lia. }
      rewrite set_m by exact L. eexists. split; [reflexivity|]. rewrite (page_read l (iname_of n) (x :: p) true L FK). reflexivity.
  - apply Nat.ltb_ge in E. replace (length r <=? k)%nat with true by (symmetry; apply Nat.leb_le; lia).
    eexists. split; [reflexivity|]. rewrite (page_read l (iname_of n) (firstn k r) false L FK). rewrite firstn_all2 by lia. reflexivity.
Qed.

Lemma alloc_ok : forall n, fit_name n -> joolnl_alloc_msg u n 0 = Some (header (u_version u) (u_xt u) 0 (iname_of n)).
Proof.
  intros n FN. unfold joolnl_alloc_msg. destruct (n_memory K u w N) as [M _]. destruct (n_room K u w N) as [R _].
  assert (V : iname_validate_u n = true).
  { destruct n as [n|]; [|reflexivity]. cbn in FN. destruct FN as [L P]. cbn [iname_validate_u].
    replace (length n <? 16)%nat with true by (symmetry; apply Nat.ltb_lt; lia). cbn [andb]. apply forallb_forall. intros x X.
    rewrite Forall_forall in P. specialize (P x X). cbn in P. lia. }
  rewrite V, M. replace (u_cap u <? 28) with false by lia. cbn [negb orb].
  assert (TT : u8 (u_xt u) = u_xt u) by (destruct types as [-> | ->]; reflexivity). rewrite TT. reflexivity.
Qed.

Lemma loop_ok : forall n l, fit_name n -> fit_listing l -> forall ever, fit_states K T (u_xt u) n l ever -> forall states last, incl states ever -> may_say (rest_in K T (u_xt u) n l) ever last -> fit_last (u_xt u) l last ->
  foreach h K T u w true n l last states = Got (shown w (rest_in K T (u_xt u) n l) last states).
Proof.
  intros n l FN FL ever FS states. induction states as [|s states IH]; intros last In_ M F; [reflexivity|]. cbn [foreach shown].
  rewrite (alloc_ok n FN). destruct (fit_iname n FN) as [L _]. destruct (n_room K u w N) as [R _].
  rewrite (ask_ok h (u_cap u) (u_xt u)) by (exact F || (unfold zlen; rewrite header_length by lia; lia)).
  assert (FS1 : forall r, rest_in K T (u_xt u) n l last s = inr r -> Forall (fit_item (u_xt u) l) r) by (intros r; apply FS; [apply In_; left; reflexivity|exact M]).
  destruct (answer_ok n l last s FN FL F FS1) as (a & A1 & A2). rewrite A1. cbv iota. rewrite A2. clear A1 A2 a.
  destruct (rest_in K T (u_xt u) n l last s) as [e|r] eqn:ER; [reflexivity|]. specialize (FS1 r eq_refl). cbv zeta.
  destruct (length r <=? fits (a_cap w - 28) r)%nat; [reflexivity|].
  assert (FP : Forall (fit_item (u_xt u) l) (firstn (fits (a_cap w - 28) r) r)).
  { apply Forall_forall. intros x X. rewrite Forall_forall in FS1. apply FS1. apply (in_firstn _ x _ _ X). }
  assert (FI : forall x, In x (firstn (fits (a_cap w - 28) r) r) -> In x r) by (intros x X; apply (in_firstn _ x _ _ X)).
  destruct (firstn (fits (a_cap w - 28) r) r) as [|x p]; [reflexivity|].
  destruct (rev (x :: p)) as [|y q] eqn:E. { apply (f_equal (@length _)) in E. rewrite rev_length in E. discriminate E. }
  assert (Y : In y (x :: p)) by (apply in_rev; rewrite E; left; reflexivity).
  rewrite IH.
  - destruct (shown w _ (Some y) states). reflexivity.
  - intros s' I'. apply In_. right. exact I'.
  - apply (say_shown _ _ last s r y M); [apply In_; left; reflexivity|exact ER|exact (FI y Y)].
  - cbn [fit_last]. rewrite Forall_forall in FP. apply FP. exact Y.
Qed.
End Loop.

(** ** A table that does not change *)

Section Steady.
Context {S : Type} (w : answering).
Lemma fits_le : forall l room, (fits room l <= length l)%nat.
Proof. induction l as [|x l IH]; intros room; [apply Nat.le_refl|]. cbn [fits length]. destruct (item_size x <=? room); [specialize (IH (room - item_size x)); lia|lia]. Qed.
Lemma fits_some : forall x l room, item_size x <= room -> (1 <= fits room (x :: l))%nat.
Proof. intros x l room H. cbn [fits]. replace (item_size x <=? room) with true by lia. lia. Qed.

Lemma shown_steady : forall (rest : option item -> S -> errno + list item) whole, Forall (fun x => item_size x <= a_cap w - 28) whole ->
  forall states done_ last left, whole = done_ ++ left -> (length left < length states)%nat ->
  (forall s, In s states -> rest last s = inr left) ->
  (forall s, In s states -> forall a x b, whole = a ++ x :: b -> rest (Some x) s = inr b) ->
  shown w rest last states = (left, Complete).
Proof.
  intros rest whole Z states. induction states as [|s states IH]; intros dn last left E L R Q; [cbn in L; lia|].
  cbn [shown]. rewrite (R s) by (left; reflexivity). cbv zeta. set (k := fits (a_cap w - 28) left).
  destruct (length left <=? k)%nat eqn:C; [reflexivity|]. apply Nat.leb_gt in C.
  assert (K1 : (1 <= k)%nat).
  { destruct left as [|x left']; [cbn in C; lia|]. apply fits_some. rewrite Forall_forall in Z. apply Z. rewrite E. apply in_or_app. right. left. reflexivity. }
  destruct (rev (firstn k left)) as [|x q] eqn:RV.
  { apply (f_equal (@length _)) in RV. rewrite rev_length, firstn_length in RV. cbn in RV. lia. }
  assert (FP : firstn k left = rev q ++ [x]) by (rewrite <- (rev_involutive (firstn k left)), RV; reflexivity).
  rewrite (IH (dn ++ firstn k left) (Some x) (skipn k left)).
  - rewrite firstn_skipn. reflexivity.
  - rewrite <- app_assoc, firstn_skipn. exact E.
  - rewrite skipn_length. cbn [length] in L. lia.
  - intros s' I'. apply (Q s' (or_intror I') (dn ++ rev q)). rewrite E. rewrite <- (firstn_skipn k left) at 1. rewrite FP. rewrite <- !app_assoc. reflexivity.
  - intros s' I'. apply Q. right. exact I'.
Qed.
End Steady.
