Require Import Verif.Base Verif.Addr_Model Verif.Pool4_Model Verif.Bib_Model Verif.Glob_Model Verif.Inst_Model Verif.File_Model Verif.Nla_Model Verif.Nla_Spec Verif.Nla_Proofs
  Verif.Req_Model Verif.Req_Spec.
Local Ltac Zify.zify_post_hook ::= Z.div_mod_to_equations.

Section Wire.
Context (h : host).

(** ** Headers *)

Definition header (version xt flags : Z) (n : name) : list Z := JOOLNL_HDR_MAGIC ++ octets 4 version ++ [xt; flags; 0; 0] ++ n ++ repeat 0 (16 - length n).

Lemma octets4 : forall v, exists a b c d, octets 4 v = [a; b; c; d].
Proof.
  intros. pose proof (octets_length 4 v) as L. destruct (octets 4 v) as [|a [|b [|c [|d [|]]]]] eqn:E; try discriminate. eauto 10.
Qed.

Lemma header_length : forall v xt fl n, (length n <= 16)%nat -> length (header v xt fl n) = 28%nat.
Proof. intros. unfold header. rewrite !app_length, repeat_length, octets_length. cbn [length JOOLNL_HDR_MAGIC]. lia. Qed.

Section Fields.
Context (v xt fl : Z) (n : name) (x : list Z).
Hypothesis N : (length n <= 16)%nat.
Let b := header v xt fl n ++ x.

Lemma f_magic : hdr_magic b = JOOLNL_HDR_MAGIC.
Proof. reflexivity. Qed.
Lemma f_version : is_u32 v -> hdr_version b = v.
Proof.
  intros V. unfold hdr_version, b, header. destruct (octets4 v) as (p & q & r & s & E). rewrite E. cbn [JOOLNL_HDR_MAGIC app skipn firstn]. rewrite <- E.
  apply be_of_octets. unfold is_u32 in V. cbn in *. lia.
Qed.
Lemma f_xt : hdr_xt b = xt.
Proof. unfold hdr_xt, b, header. destruct (octets4 v) as (p & q & r & s & E). rewrite E. reflexivity. Qed.
Lemma f_flags : hdr_flags b = fl.
Proof. unfold hdr_flags, b, header. destruct (octets4 v) as (p & q & r & s & E). rewrite E. reflexivity. Qed.
Lemma f_iname : hdr_iname b = n ++ repeat 0 (16 - length n).
Proof.
  unfold hdr_iname, b, header. destruct (octets4 v) as (p & q & r & s & E). rewrite E. cbn [JOOLNL_HDR_MAGIC app skipn].
  rewrite <- app_assoc, app_assoc. apply firstn_app_exact. rewrite app_length, repeat_length. lia.
Qed.
Lemma f_rest : skipn 28 b = x.
Proof. unfold b. apply skipn_app_exact. symmetry. apply header_length. exact N. Qed.
Lemma f_first : firstn 28 b = header v xt fl n.
Proof. unfold b. apply firstn_app_exact. symmetry. apply header_length. exact N. Qed.
Lemma f_zlen : zlen b = 28 + zlen x.
Proof. unfold b. rewrite zlen_app. unfold zlen at 1. rewrite header_length by exact N. lia. Qed.
Lemma f_long : (zlen b <? 28) = false.
Proof. rewrite f_zlen. pose proof (zlen_nonneg _ x). lia. Qed.
End Fields.

Lemma cstring_app : forall n k, Forall (fun c => c <> 0) n -> cstring (n ++ 0 :: k) = n.
Proof.
  induction n as [|c n IH]; intros k F; [reflexivity|]. inversion F; subst. cbn [app cstring].
  destruct (c =? 0) eqn:E; [lia|]. rewrite IH; auto.
Qed.

Lemma iname_back : forall v xt fl n x, (length n <= 15)%nat -> Forall (fun c => 32 <= c <= 127) n ->
  get_iname (header v xt fl n ++ x) = match n with [] => INAME_DEFAULT | _ => n end.
Proof.
  intros v xt fl n x L F. unfold get_iname. rewrite f_iname by lia.
  replace (16 - length n)%nat with (S (15 - length n)) by lia. cbn [repeat].
  rewrite cstring_app. { destruct n; reflexivity. } eapply Forall_impl; [|exact F]. cbn. lia.
Qed.

Lemma set_flag_header : forall v xt fl n, (length n <= 16)%nat -> set_flag (header v xt fl n) FLAGS_ERROR = header v xt (u8 (Z.lor fl 1)) n.
Proof.
  intros v xt fl n L. unfold set_flag, header. destruct (octets4 v) as (p & q & r & s & E). rewrite E. reflexivity.
Qed.

(** ** Requests that have one attribute *)

Lemma root_nested : forall ty d, 1 <= ty <= 13 -> jool_policy ty = PNested -> 4 <= zlen d <= 65531 ->
  nla_parse_k h JNLAR_MAX jool_policy (blk h (flag_u ty) d) = Got (tset empty ty (Attr (flag_u ty) d)).
Proof.
  intros ty d R P L. unfold nla_parse_k.
  assert (T : 0 <= ty <= 16383) by lia.
  rewrite (attributes_blk1 h) by (try apply (flag_range h flag_u ty (flagger_u h) T); lia).
  rewrite (step_k h _ _ ty).
  - reflexivity.
  - apply (nla_type_flag h flag_u ty d (flagger_u h) T).
  - unfold JNLAR_MAX. lia.
  - rewrite P. apply (val_nested_k h flag_u ty d (flagger_u h) T). lia.
Qed.

Lemma root_empty : nla_parse_k h JNLAR_MAX jool_policy [] = Got empty.
Proof. reflexivity. Qed.

(** ** The client's attributes *)

Definition d_opt6 (o : option prefix6) := match o with Some p => d_prefix6 h p | None => d_none h end.
Definition d_opt4 (o : option prefix4) := match o with Some p => d_prefix4 h p | None => d_none h end.
Definition d_eamt (p6 : option prefix6) (p4 : option prefix4) : list Z := blk h (flag_u 1) (d_opt6 p6) ++ blk h (flag_u 2) (d_opt4 p4).

Section Writers.
Context (cap : Z).

Lemma w_opt6 : forall ty o, writes cap (nla_put_prefix6 h cap ty o) (blk h (flag_u ty) (d_opt6 o)).
Proof. intros ty [p|]; [exact (proj1 (w_prefix6_u h cap ty p)) | exact (proj1 (w_none6_u h cap ty))]. Qed.
Lemma w_opt4 : forall ty o, writes cap (nla_put_prefix4 h cap ty o) (blk h (flag_u ty) (d_opt4 o)).
Proof. intros ty [p|]; [exact (proj1 (w_prefix4_u h cap ty p)) | exact (proj1 (w_none4_u h cap ty))]. Qed.
Lemma z_opt6 : forall o, 8 <= zlen (d_opt6 o) <= 28.
Proof. intros [p|]; cbn [d_opt6]; rewrite ?zlen_prefix6, ?zlen_none; lia. Qed.
Lemma z_opt4 : forall o, 8 <= zlen (d_opt4 o) <= 16.
Proof. intros [p|]; cbn [d_opt4]; rewrite ?zlen_prefix4, ?zlen_none; lia. Qed.
Lemma z_eamt : forall p6 p4, 24 <= zlen (d_eamt p6 p4) <= 60.
Proof.
  intros. unfold d_eamt. rewrite zlen_app, !zlen_blk. pose proof (z_opt6 p6). pose proof (z_opt4 p4). unfold padding. lia.
Qed.
Lemma w_eamt : forall p6 p4, writes cap (update_eamt h cap p6 p4) (blk h (flag_u 10) (d_eamt p6 p4)).
Proof.
  intros. pose proof (z_eamt p6 p4). apply nest_u_writes; [|lia|lia]. apply andthen_writes; [apply w_opt6 | apply w_opt4].
Qed.

Definition d_opta6 (o : option (Z * Z)) : list Z := match o with Some a => blk h (flag_u 1) (d_taddr6 h a) | None => [] end.
Definition d_opta4 (o : option (Z * Z)) : list Z := match o with Some a => blk h (flag_u 2) (d_taddr4 h a) | None => [] end.
Definition d_rest (q : Z) (s : bool) : list Z := blk h 3 (host_octets h 1 q) ++ blk h 4 (host_octets h 1 (if s then 1 else 0)).
Definition d_bibs (a6 a4 : option (Z * Z)) (q : Z) (s : bool) : list Z := d_opta6 a6 ++ d_opta4 a4 ++ d_rest q s.

Lemma skip_done : forall g x, writes cap g x -> writes cap (andthen done g) x.
Proof. intros g x W. exact W. Qed.

Lemma w_rest : forall q s, writes cap (andthen (nla_put_u8 h cap JNLAB_PROTO q) (nla_put_u8 h cap JNLAB_STATIC (if s : bool then 1 else 0))) (d_rest q s).
Proof. intros. apply andthen_writes; apply put_writes. Qed.
Lemma z_rest : forall q s, zlen (d_rest q s) = 16.
Proof. intros. unfold d_rest. rewrite zlen_app, !zlen_blk, !zlen_host. reflexivity. Qed.
Lemma z_bibs : forall a6 a4 q s, 16 <= zlen (d_bibs a6 a4 q s) <= 68.
Proof.
  intros. unfold d_bibs. rewrite !zlen_app, z_rest.
  destruct a6, a4; cbn [d_opta6 d_opta4]; rewrite ?zlen_blk, ?zlen_taddr6, ?zlen_taddr4, ?zlen_nil; unfold padding; lia.
Qed.
Lemma w_bibs : forall a6 a4 q s, writes cap (nla_put_bib_attrs h cap JNLAR_OPERAND a6 a4 q s) (blk h (flag_u 10) (d_bibs a6 a4 q s)).
Proof.
  intros. pose proof (z_bibs a6 a4 q s). apply nest_u_writes; [|lia|lia]. unfold d_bibs.
  destruct a6 as [a6|], a4 as [a4|]; cbn [d_opta6 d_opta4 app].
  - apply andthen_writes; [apply w_taddr6_u|]. apply andthen_writes; [apply w_taddr4_u|]. apply w_rest.
  - apply andthen_writes; [apply w_taddr6_u|]. apply skip_done. apply w_rest.
  - apply skip_done. apply andthen_writes; [apply w_taddr4_u|]. apply w_rest.
  - apply skip_done. apply skip_done. apply w_rest.
Qed.

(** Settings *)
Definition a_setting (id : Z) (v : gval) : attr :=
  match v with
  | VU8 x => Attr id (host_octets h 1 x)
  | VU32 x => Attr id (host_octets h 4 x)
  | VPlateaus l => Attr (flag_u id) (d_plateaus h l)
  | VPrefix6 (Some len) (Some addr) => Attr (flag_u id) (d_prefix6 h (P6 addr len))
  | VPrefix4 (Some len) (Some addr) => Attr (flag_u id) (d_prefix4 h (P4 addr len))
  | VPrefix6 _ _ | VPrefix4 _ _ => Attr (flag_u id) (d_none h)
  end.
Definition d_setting (id : Z) (v : gval) : list Z := blk h (a_type (a_setting id v)) (a_data (a_setting id v)).

Lemma w_setting : forall xt id v, fit_setting xt id v -> writes cap (put_setting h cap id v) (d_setting id v).
Proof.
  intros xt id v [_ F]. destruct v as [x|x|l|len addr|len addr].
  - apply put_writes.
  - apply put_writes.
  - destruct F as (_ & N & _ & L). apply w_plateaus_u; [exact N | lia].
  - destruct F as (_ & [(l & a & -> & -> & _)|(-> & ->)]); [exact (w_opt6 id (Some (P6 a l))) | exact (w_opt6 id None)].
  - destruct F as (_ & [(l & a & -> & -> & _)|(-> & ->)]); [exact (w_opt4 id (Some (P4 a l))) | exact (w_opt4 id None)].
Qed.
Lemma z_setting : forall xt id v, fit_setting xt id v -> 8 <= zlen (d_setting id v) <= 516 /\ zlen (a_data (a_setting id v)) <= 512.
Proof.
  intros xt id v [_ F]. unfold d_setting. rewrite zlen_blk. unfold padding.
  destruct v as [x|x|l|len addr|len addr]; cbn [a_setting a_data].
  - rewrite zlen_host. lia.
  - rewrite zlen_host. lia.
  - destruct F as (_ & N & _ & L). rewrite zlen_plateaus. destruct l; [contradiction|]. unfold zlen in *. cbn [length] in *. lia.
  - destruct F as (_ & [(l & a & -> & -> & _)|(-> & ->)]); cbn [a_data]; rewrite ?zlen_prefix6, ?zlen_none; lia.
  - destruct F as (_ & [(l & a & -> & -> & _)|(-> & ->)]); cbn [a_data]; rewrite ?zlen_prefix4, ?zlen_none; lia.
Qed.
Lemma w_globals : forall xt id v, fit_setting xt id v -> writes cap (nest_u h cap JNLAR_GLOBALS (put_setting h cap id v)) (blk h (flag_u 2) (d_setting id v)).
Proof. intros xt id v F. destruct (z_setting xt id v F). apply nest_u_writes; [apply w_setting with xt; exact F|lia|lia]. Qed.

Lemma written : forall w x b, writes cap w x -> zlen b + zlen x <= cap -> w b = Put (b ++ x).
Proof. intros w x b [_ W] L. specialize (W b). destruct (zlen b + zlen x <=? cap) eqn:E; [exact W|lia]. Qed.
End Writers.

(** ** The handlers *)

Section Kernel.
Context {S I : Type} (K : kernel S I).
Context (b : list Z) (i : I) (s : S).

Lemma FU : flagger h flag_u.
Proof. apply flagger_u. Qed.

Definition operand (d : list Z) : table := tset empty 10 (Attr (flag_u 10) d).
Lemma operand_at : forall d, operand d JNLAR_OPERAND = Some (Attr (flag_u 10) d).
Proof. reflexivity. Qed.

Lemma l_eamt_add : forall p6 p4, wt_prefix6 p6 -> wt_prefix4 p4 ->
  handle_eamt_add h K b (operand (d_eamt (Some p6) (Some p4))) i s = Got (k_eamt_add K i p6 p4 (forced b) s).
Proof.
  intros p6 p4 W6 W4. unfold handle_eamt_add. rewrite operand_at.
  change (d_eamt (Some p6) (Some p4)) with (d_eam h flag_u p6 p4). rewrite (r_eam_k h flag_u FU 10) by (assumption || lia). reflexivity.
Qed.

Lemma l_eamt_rm : forall p6 p4, wt_prefix6 p6 -> wt_prefix4 p4 ->
  handle_eamt_rm h K b (operand (d_eamt (Some p6) (Some p4))) i s = Got (k_eamt_rm K i (Some p6) (Some p4) s).
Proof.
  intros p6 p4 W6 W4. unfold handle_eamt_rm. rewrite operand_at.
  change (d_eamt (Some p6) (Some p4)) with (d_eam h flag_u p6 p4). rewrite (p_eam_k h flag_u FU 10) by lia. cbn [reading].
  unfold JNLAE_PREFIX6, JNLAE_PREFIX4. cbn [tset Z.eqb Pos.eqb].
  rewrite (mandatory_k6 h flag_u FU 1) by (assumption || lia). cbn [rbind reading].
  rewrite (mandatory_k4 h flag_u FU 2) by (assumption || lia). reflexivity.
Qed.

Lemma l_deny : forall p, wt_prefix4 p -> jnla_get_prefix4 h (operand (d_prefix4 h p) JNLAR_OPERAND) = Got p.
Proof. intros p W. rewrite operand_at. apply (mandatory_k4 h flag_u FU 10); [lia | exact W]. Qed.

Definition d_entry (e : entry) : list Z := match e with EPool4 m it g q p r => d_pool4 h flag_u m it g q p r | _ => [] end.
Lemma l_pool4 : forall e, home e = TPool4 -> fit_entry e -> jnla_get_pool4 h (operand (d_entry e) JNLAR_OPERAND) = Got e.
Proof. intros e H F. destruct e; try discriminate. rewrite operand_at. apply (r_pool4_k h flag_u FU 10); [lia | exact F]. Qed.

Lemma l_bib_add : forall a6 a4 q, fit_taddr6 a6 -> fit_taddr4 a4 -> is_u8 q ->
  jnla_get_bib h (operand (d_bibs (Some a6) (Some a4) q true) JNLAR_OPERAND) = Got (EBib a6 a4 q true).
Proof.
  intros a6 a4 q F6 F4 Q. rewrite operand_at. change (d_bibs (Some a6) (Some a4) q true) with (d_bib h flag_u a6 a4 q true).
  apply (r_bib_k h flag_u FU 10); [lia | repeat split; assumption || apply F6 || apply F4 || apply Q].
Qed.

Definition t_bib (a6 a4 : option (Z * Z)) (q : Z) (st : bool) : table :=
  let t := empty in
  let t := match a6 with Some a => tset t 1 (Attr (flag_u 1) (d_taddr6 h a)) | None => t end in
  let t := match a4 with Some a => tset t 2 (Attr (flag_u 2) (d_taddr4 h a)) | None => t end in
  tset (tset t 3 (Attr 3 (host_octets h 1 q))) 4 (Attr 4 (host_octets h 1 (if st then 1 else 0))).

Ltac sd := first [apply (flag_range h flag_u _ FU); lia | lia | (rewrite ?zlen_host, ?zlen_taddr6, ?zlen_taddr4; lia)].
Ltac tt_ := first [apply nla_type_plain; lia | apply (nla_type_flag h flag_u _ _ FU); lia].
Ltac vk_ := first [apply val_u8_k; lia | apply (val_nested_k h flag_u _ _ FU); [lia | rewrite ?zlen_taddr6, ?zlen_taddr4; lia]].
Ltac stp n := rewrite (step_k h _ _ n); [|tt_|unfold JNLAB_MAX; lia|vk_].

Lemma p_bibs : forall a6 a4 q st, nla_parse_nested_k h JNLAB_MAX (Attr (flag_u 10) (d_bibs a6 a4 q st)) bib_policy = Got (t_bib a6 a4 q st).
Proof.
  intros a6 a4 q st. unfold d_bibs, d_rest, t_bib.
  destruct a6 as [a6|], a4 as [a4|]; cbn [d_opta6 d_opta4 app].
  - eapply (nested_k h flag_u 10); [exact FU | lia | repeat (rewrite attributes_blk by sd); rewrite attributes_blk1 by sd; reflexivity | cbn [fst]; stp 1; stp 2; stp 3; stp 4; reflexivity].
  - eapply (nested_k h flag_u 10); [exact FU | lia | repeat (rewrite attributes_blk by sd); rewrite attributes_blk1 by sd; reflexivity | cbn [fst]; stp 1; stp 3; stp 4; reflexivity].
  - eapply (nested_k h flag_u 10); [exact FU | lia | repeat (rewrite attributes_blk by sd); rewrite attributes_blk1 by sd; reflexivity | cbn [fst]; stp 2; stp 3; stp 4; reflexivity].
  - eapply (nested_k h flag_u 10); [exact FU | lia | repeat (rewrite attributes_blk by sd); rewrite attributes_blk1 by sd; reflexivity | cbn [fst]; stp 3; stp 4; reflexivity].
Qed.

Lemma l_bib_rm : forall a6 a4 q, fit_opt fit_taddr6 a6 -> fit_opt fit_taddr4 a4 -> (a6 <> None \/ a4 <> None) -> is_u8 q ->
  handle_bib_rm h K b (operand (d_bibs a6 a4 q true)) i s = Got (call K 0 (BibRm a6 a4 q) i s).
Proof.
  intros a6 a4 q F6 F4 N Q. unfold handle_bib_rm. rewrite operand_at, p_bibs. cbn [reading].
  assert (P : nla_get_ptr h 1 (t_bib a6 a4 q true JNLAB_PROTO) = Got q).
  { unfold t_bib, JNLAB_PROTO. cbn [tset Z.eqb Pos.eqb nla_get_ptr]. apply get_host. unfold is_u8 in Q. cbn. lia. }
  rewrite P. unfold t_bib, JNLAB_SRC6, JNLAB_SRC4.
  destruct a6 as [a6|], a4 as [a4|]; cbn [fit_opt] in F6, F4; cbn [tset empty Z.eqb Pos.eqb].
  - rewrite (r_taddr6_k h flag_u 1 a6 FU) by (assumption || lia). cbn [rbind reading].
    rewrite (r_taddr4_k h flag_u 2 a4 FU) by (assumption || lia). reflexivity.
  - rewrite (r_taddr6_k h flag_u 1 a6 FU) by (assumption || lia). cbn [rbind reading call].
    destruct (k_bib_find6 K i q a6 s) as [e|[x y]]; reflexivity.
  - rewrite (r_taddr4_k h flag_u 2 a4 FU) by (assumption || lia). cbn [rbind reading call].
    destruct (k_bib_find4 K i q a4 s) as [e|[x y]]; reflexivity.
  - destruct N as [N|N]; contradiction.
Qed.

(** ** Settings *)

Lemma setting_range : forall xt id v, fit_setting xt id v -> 1 <= id <= 32.
Proof.
  intros xt id v [F _]. unfold Glob_Model.policy in F. cbn [existsb] in F.
  repeat match type of F with context [if ?c then _ else _] => destruct c eqn:? end; try discriminate; lia.
Qed.

Lemma setting_valid : forall xt id v, fit_setting xt id v -> validate_k h (globals_policy xt id) (a_setting id v) = true.
Proof.
  intros xt id v F. pose proof (setting_range _ _ _ F) as R. destruct F as [F V]. unfold globals_policy.
  destruct (Glob_Model.policy xt id) as [[| |]|]; destruct v as [x|x|l|len addr|len addr]; try discriminate F; cbn [a_setting].
  - apply val_u8_k. lia.
  - apply val_u32_k. lia.
  - destruct V as (_ & N & _ & L). apply (val_nested_k h flag_u id _ FU); [lia|]. rewrite zlen_plateaus. destruct l; [contradiction|]. unfold zlen. cbn [length]. lia.
  - destruct V as (_ & [(l & a & -> & -> & _)|(-> & ->)]); apply (val_nested_k h flag_u id _ FU); rewrite ?zlen_prefix6, ?zlen_none; lia.
  - destruct V as (_ & [(l & a & -> & -> & _)|(-> & ->)]); apply (val_nested_k h flag_u id _ FU); rewrite ?zlen_prefix4, ?zlen_none; lia.
Qed.

Lemma setting_type : forall xt id v, fit_setting xt id v -> nla_type (a_setting id v) = id /\ 0 <= a_type (a_setting id v) < 65536.
Proof.
  intros xt id v F. pose proof (setting_range _ _ _ F) as R.
  assert (A : forall d, nla_type (Attr (flag_u id) d) = id /\ 0 <= flag_u id < 65536).
  { intros d. split; [apply (nla_type_flag h flag_u _ _ FU); lia | apply (flag_range h flag_u _ FU); lia]. }
  assert (B : forall d, nla_type (Attr id d) = id /\ 0 <= id < 65536).
  { intros d. split; [apply nla_type_plain; lia | lia]. }
  destruct v as [x|x|l|[len|] [addr|]|[len|] [addr|]]; cbn [a_setting a_type]; first [apply A | apply B].
Qed.

Lemma setting_read : forall xt id v, fit_setting xt id v -> read_setting h xt id (a_setting id v) = Got v.
Proof.
  intros xt id v F. pose proof (setting_range _ _ _ F) as R. destruct F as [F V]. unfold read_setting.
  destruct v as [x|x|l|len addr|len addr].
  - assert (G : globals_policy xt id = PU8) by (unfold globals_policy; destruct (Glob_Model.policy xt id) as [[| |]|]; try discriminate F; reflexivity).
    replace ((id =? JNLAG_POOL6) || (id =? JNLAG_POOL6791V6)) with false.
    2:{ symmetry. unfold Glob_Model.policy, JNLAG_POOL6, JNLAG_POOL6791V6 in *. destruct (id =? 2) eqn:E2; [replace id with 2 in F by lia; discriminate F|].
        destruct (id =? 12) eqn:E12; [replace id with 12 in F by lia; cbn in F; destruct (xt =? XT_SIIT); discriminate F|]. reflexivity. }
    replace (id =? JNLAG_POOL6791V4) with false.
    2:{ symmetry. unfold Glob_Model.policy, JNLAG_POOL6791V4 in *. destruct (id =? 13) eqn:E; [replace id with 13 in F by lia; cbn in F; destruct (xt =? XT_SIIT); discriminate F|]. reflexivity. }
    replace (id =? JNLAG_PLATEAUS) with false.
    2:{ symmetry. unfold Glob_Model.policy, JNLAG_PLATEAUS in *. destruct (id =? 8) eqn:E; [replace id with 8 in F by lia; discriminate F|]. reflexivity. }
    rewrite G. cbn [a_setting]. rewrite get_host by (unfold is_u8 in V; cbn; lia). reflexivity.
  - assert (G : globals_policy xt id = PU32) by (unfold globals_policy; destruct (Glob_Model.policy xt id) as [[| |]|]; try discriminate F; reflexivity).
    replace ((id =? JNLAG_POOL6) || (id =? JNLAG_POOL6791V6)) with false.
    2:{ symmetry. unfold Glob_Model.policy, JNLAG_POOL6, JNLAG_POOL6791V6 in *. destruct (id =? 2) eqn:E2; [replace id with 2 in F by lia; discriminate F|].
        destruct (id =? 12) eqn:E12; [replace id with 12 in F by lia; cbn in F; destruct (xt =? XT_SIIT); discriminate F|]. reflexivity. }
    replace (id =? JNLAG_POOL6791V4) with false.
    2:{ symmetry. unfold Glob_Model.policy, JNLAG_POOL6791V4 in *. destruct (id =? 13) eqn:E; [replace id with 13 in F by lia; cbn in F; destruct (xt =? XT_SIIT); discriminate F|]. reflexivity. }
    replace (id =? JNLAG_PLATEAUS) with false.
    2:{ symmetry. unfold Glob_Model.policy, JNLAG_PLATEAUS in *. destruct (id =? 8) eqn:E; [replace id with 8 in F by lia; discriminate F|]. reflexivity. }
    rewrite G. cbn [a_setting]. rewrite get_host by (unfold is_u32 in V; cbn; lia). reflexivity.
  - destruct V as (-> & N & U & L). cbn -[jnla_get_plateau_values flag_u d_plateaus]. rewrite (r_plateaus_k h _ l U L). reflexivity.
  - destruct V as (C & V). replace ((id =? JNLAG_POOL6) || (id =? JNLAG_POOL6791V6)) with true by (destruct C as [-> | ->]; reflexivity).
    destruct V as [(l & a & -> & -> & W)|(-> & ->)]; cbn [a_setting].
    + rewrite (r_prefix6_k h flag_u id (P6 a l) FU) by (assumption || lia). reflexivity.
    + rewrite (r_none6_k h flag_u id FU) by lia. reflexivity.
  - destruct V as (-> & V). change (JNLAG_POOL6791V4 =? JNLAG_POOL6) with false. change (JNLAG_POOL6791V4 =? JNLAG_POOL6791V6) with false.
    change (JNLAG_POOL6791V4 =? JNLAG_POOL6791V4) with true. cbn [orb]. unfold JNLAG_POOL6791V4.
    destruct V as [(l & a & -> & -> & W)|(-> & ->)]; cbn [a_setting].
    + rewrite (r_prefix4_k h flag_u 13 (P4 a l) FU) by (assumption || lia). reflexivity.
    + rewrite (r_none4_k h flag_u 13 FU) by lia. reflexivity.
Qed.

Lemma update_same : forall force xt id v metas g, read_setting h xt id (a_setting id v) = Got v ->
  update_each_octets h force xt (tset empty id (a_setting id v)) metas g =
  Got (update_each force xt (fun j => option_map snd (find (fun a : Z * gval => fst a =? j) (rev [(id, v)]))) metas g).
Proof.
  intros force xt id v metas. induction metas as [|[j m] metas IH]; intros g R; [reflexivity|].
  cbn [update_each_octets update_each rev app find fst]. destruct (negb (bit_and m xt)); [apply IH; exact R|].
  unfold tset at 1. rewrite (Z.eqb_sym id j). destruct (j =? id) eqn:E; cbn [empty option_map snd]; [|apply IH; exact R].
  assert (j = id) by lia. subst j. rewrite R. destruct (nl2raw force id v g) as [[|e] g'] eqn:N; [|reflexivity]. apply IH. exact R.
Qed.

Lemma l_globals : forall xt id v force g, fit_setting xt id v ->
  global_update_octets h g xt force (Attr (flag_u 2) (d_setting id v)) = Got (global_update g xt force [(id, v)]).
Proof.
  intros xt id v force g F. unfold global_update_octets, global_update.
  destruct ((xt =? XT_SIIT) || (xt =? XT_NAT64)); [|reflexivity].
  destruct (setting_type _ _ _ F) as [T A]. destruct (z_setting xt id v F) as [_ Z]. pose proof (setting_range _ _ _ F) as R.
  rewrite (nested_k h flag_u 2 _ 32 _ [a_setting id v] (tset empty id (a_setting id v)) FU).
  - unfold jnla_parse_nested. cbn [forallb fst snd]. destruct F as [F V]. rewrite F. cbn [andb].
    rewrite (update_same force xt id v metadata g (setting_read _ _ _ (conj F V))). reflexivity.
  - lia.
  - unfold d_setting. rewrite attributes_blk1 by lia. destruct (a_setting id v); reflexivity.
  - rewrite (step_k h _ _ id); [reflexivity | exact T | lia | apply setting_valid; exact F].
Qed.
End Kernel.

(** ** All requests *)

Definition body (c : command) : list Z :=
  match c with
  | EamtAdd p6 p4 _ => blk h (flag_u 10) (d_eamt (Some p6) (Some p4))
  | EamtRm p6 p4 => blk h (flag_u 10) (d_eamt p6 p4)
  | DenyAdd p _ | DenyRm p => blk h (flag_u 10) (d_prefix4 h p)
  | Pool4Add e _ | Pool4Rm e _ => blk h (flag_u 10) (d_entry e)
  | BibAdd a6 a4 q => blk h (flag_u 10) (d_bibs (Some a6) (Some a4) q true)
  | BibRm a6 a4 q => blk h (flag_u 10) (d_bibs a6 a4 q true)
  | GlobalUpdate id v _ => blk h (flag_u 2) (d_setting id v)
  | EamtFlush | DenyFlush | Pool4Flush _ => []
  end.
Definition root (c : command) : table :=
  match c with
  | EamtAdd p6 p4 _ => operand (d_eamt (Some p6) (Some p4))
  | EamtRm p6 p4 => operand (d_eamt p6 p4)
  | DenyAdd p _ | DenyRm p => operand (d_prefix4 h p)
  | Pool4Add e _ | Pool4Rm e _ => operand (d_entry e)
  | BibAdd a6 a4 q => operand (d_bibs (Some a6) (Some a4) q true)
  | BibRm a6 a4 q => operand (d_bibs a6 a4 q true)
  | GlobalUpdate id v _ => tset empty 2 (Attr (flag_u 2) (d_setting id v))
  | EamtFlush | DenyFlush | Pool4Flush _ => empty
  end.
Definition op_of (c : command) : operation := fst (fst (function_of h c)).
Definition flags_of (c : command) : Z := snd (fst (function_of h c)).

Lemma zlen_blk4 : forall ty d, zlen (blk h ty d) <= zlen d + 7.
Proof. intros. rewrite zlen_blk. unfold padding. lia. Qed.

Lemma body_written : forall xt c cap b, fit_command xt c -> zlen b + 560 <= cap -> snd (function_of h c) cap b = Put (b ++ body c).
Proof.
  intros xt c cap b F L.
  destruct c as [p6 p4 f|p6 p4| |p f|p| |e f|e q|q|a6 a4 q|a6 a4 q|id v f]; cbn [function_of snd body fit_command] in *; try (unfold done; rewrite app_nil_r; reflexivity).
  - apply (written cap _ _ b (w_eamt cap (Some p6) (Some p4))). pose proof (zlen_blk4 (flag_u 10) (d_eamt (Some p6) (Some p4))). pose proof (z_eamt (Some p6) (Some p4)). lia.
  - apply (written cap _ _ b (w_eamt cap p6 p4)). pose proof (zlen_blk4 (flag_u 10) (d_eamt p6 p4)). pose proof (z_eamt p6 p4). lia.
  - apply (written cap _ _ b (proj1 (w_prefix4_u h cap 10 p))). pose proof (zlen_blk4 (flag_u 10) (d_prefix4 h p)). rewrite zlen_prefix4 in *. lia.
  - apply (written cap _ _ b (proj1 (w_prefix4_u h cap 10 p))). pose proof (zlen_blk4 (flag_u 10) (d_prefix4 h p)). rewrite zlen_prefix4 in *. lia.
  - destruct F as [H F]. destruct e; try discriminate H. apply (written cap _ _ b (proj1 (w_pool4_u h cap 10 _ _ _ _ _ _))).
    cbn [d_entry]. match goal with |- context [blk h ?t ?d] => pose proof (zlen_blk4 t d) end. rewrite zlen_pool4 in *. lia.
  - destruct F as [H F]. destruct e; try discriminate H. apply (written cap _ _ b (proj1 (w_pool4_u h cap 10 _ _ _ _ _ _))).
    cbn [d_entry]. match goal with |- context [blk h ?t ?d] => pose proof (zlen_blk4 t d) end. rewrite zlen_pool4 in *. lia.
  - apply (written cap _ _ b (w_bibs cap (Some a6) (Some a4) q true)). match goal with |- context [blk h ?t ?d] => pose proof (zlen_blk4 t d) end.
    pose proof (z_bibs (Some a6) (Some a4) q true). lia.
  - apply (written cap _ _ b (w_bibs cap a6 a4 q true)). match goal with |- context [blk h ?t ?d] => pose proof (zlen_blk4 t d) end.
    pose proof (z_bibs a6 a4 q true). lia.
  - apply (written cap _ _ b (w_globals cap xt id v F)). match goal with |- context [blk h ?t ?d] => pose proof (zlen_blk4 t d) end.
    pose proof (z_setting xt id v F). lia.
Qed.

Lemma body_parsed : forall xt c, fit_command xt c -> nla_parse_k h JNLAR_MAX jool_policy (body c) = Got (root c).
Proof.
  intros xt c F.
  destruct c as [p6 p4 f|p6 p4| |p f|p| |e f|e q|q|a6 a4 q|a6 a4 q|id v f]; cbn [body root fit_command] in *; try apply root_empty; apply root_nested; try reflexivity; try lia.
  - pose proof (z_eamt (Some p6) (Some p4)). lia.
  - pose proof (z_eamt p6 p4). lia.
  - rewrite zlen_prefix4. lia.
  - rewrite zlen_prefix4. lia.
  - destruct F as [H F]. destruct e; try discriminate H. cbn [d_entry]. rewrite zlen_pool4. lia.
  - destruct F as [H F]. destruct e; try discriminate H. cbn [d_entry]. rewrite zlen_pool4. lia.
  - pose proof (z_bibs (Some a6) (Some a4) q true). lia.
  - pose proof (z_bibs a6 a4 q true). lia.
  - pose proof (z_setting xt id v F). lia.
Qed.

Section All.
Context {S I : Type} (K : kernel S I) (u : client) (w : answering).
Hypothesis N : normal K u w.

Lemma type_value : u_xt u = 1 \/ u_xt u = 2.
Proof. destruct (n_type K u w N) as [[T _]|[T _]]; [left|right]; exact T. Qed.

Lemma start_ok : forall fl n x xt s, (length n <= 15)%nat -> Forall (fun c => 32 <= c <= 127) n ->
  request_handle_start K true (header (u_version u) (u_xt u) fl n ++ x) xt s =
  if negb (bit_and (u_xt u) xt) then inl EINVAL else k_find K (match n with [] => INAME_DEFAULT | _ => n end) (u_xt u) s.
Proof.
  intros fl n x xt s L F. unfold request_handle_start. cbn [negb].
  destruct (n_version K u w N) as (V1 & V2 & V3).
  assert (A : validate_magic (header (u_version u) (u_xt u) fl n ++ x) = true) by reflexivity.
  assert (B : validate_stateness K (header (u_version u) (u_xt u) fl n ++ x) = true).
  { unfold validate_stateness. rewrite f_xt. destruct (n_type K u w N) as [[-> ->]|[-> ->]]; reflexivity. }
  assert (C : validate_version K (header (u_version u) (u_xt u) fl n ++ x) = true).
  { unfold validate_version. rewrite f_version by (exact V1 || lia). unfold same_version. change (2 ^ 16) with 65536 in V3. rewrite V3. apply Z.eqb_refl. }
  rewrite A, B, C. cbn [negb]. rewrite f_xt, iname_back by assumption. reflexivity.
Qed.

(** What the handlers do is what was asked, but for the two that are different *)
Definition regular (c : command) (i : I) (s : S) : Prop :=
  match c with
  | EamtRm p6 p4 => p6 <> None /\ p4 <> None
  | Pool4Rm (EPool4 m it g q p ports) false => prefix4_validate p = OK /\ fst (k_pool4_rm K i (EPool4 m it g q p ports) s) = OK
  | _ => True
  end.

Lemma forced_flag : forall v xt n x f, forced (header v xt (force_flag f) n ++ x) = f.
Proof. intros. unfold forced. rewrite f_flags. destruct f; reflexivity. Qed.
Lemma quick_back : forall v xt n x f, quick (header v xt (quick_flag f) n ++ x) = f.
Proof. intros. unfold quick. rewrite f_flags. destruct f; reflexivity. Qed.

Lemma handled : forall c n x i s, fit_command (u_xt u) c -> regular c i s ->
  snd (handler_of h K (op_of c)) (header (u_version u) (u_xt u) (flags_of c) n ++ x) (root c) i s = Got (call K (u_xt u) c i s).
Proof.
  intros c n x i s F R.
  destruct c as [p6 p4 f|p6 p4| |p f|p| |e f|e q|q|a6 a4 q|a6 a4 q|id v f];
    unfold op_of, flags_of; cbn [function_of fst snd handler_of root call fit_command regular] in *.
  - destruct F as [F6 F4]. rewrite l_eamt_add by assumption. rewrite forced_flag. reflexivity.
  - destruct F as [F6 F4]. destruct R as [R6 R4]. destruct p6 as [p6|]; [|contradiction]. destruct p4 as [p4|]; [|contradiction].
    apply l_eamt_rm; assumption.
  - reflexivity.
  - unfold handle_denylist4_add. rewrite l_deny by exact F. cbn [reading]. rewrite forced_flag. reflexivity.
  - unfold handle_denylist4_rm. rewrite l_deny by exact F. reflexivity.
  - reflexivity.
  - unfold handle_pool4_add. destruct F as [H F]. rewrite l_pool4 by assumption. cbn [reading]. rewrite forced_flag. reflexivity.
  - unfold handle_pool4_rm. destruct F as [H F]. rewrite l_pool4 by assumption. cbn [reading]. rewrite quick_back.
    destruct e as [?|?|m it g pr p ports|?]; try discriminate H.
    destruct (k_pool4_rm K i (EPool4 m it g pr p ports) s) as [[|err] s'] eqn:E; cbn [fst] in R.
    + destruct q; [reflexivity|]. destruct R as [V _]. unfold ports_left. rewrite V. destruct ports as [lo hi]. cbn [fst snd].
      destruct (lo >? hi) eqn:G; do 4 f_equal; lia.
    + destruct q; [reflexivity|]. destruct R as [_ R]. discriminate R.
  - unfold handle_pool4_flush. rewrite quick_back. destruct q; reflexivity.
  - unfold handle_bib_add. destruct F as (F6 & F4 & Q). rewrite l_bib_add by assumption. cbn [reading].
    destruct (k_pool4_contains K i q a4 s); reflexivity.
  - destruct F as (F6 & F4 & NN & Q). rewrite l_bib_rm by assumption. reflexivity.
  - unfold handle_global_update_octets. change (tset empty 2 (Attr (flag_u 2) (d_setting id v)) JNLAR_GLOBALS) with (Some (Attr (flag_u 2) (d_setting id v))). cbv iota.
    rewrite forced_flag, f_xt, l_globals by exact F. destruct (global_update (k_globals K i s) (u_xt u) f [(id, v)]) as [[|e] g]; reflexivity.
Qed.

Lemma about_handler : forall c, fst (handler_of h K (op_of c)) = about c.
Proof. intros c. destruct c; reflexivity. Qed.

Definition regular_here (n : option name) (c : command) (s : S) : Prop :=
  forall i, k_find K (name_of n) (u_xt u) s = inr i -> regular c i s.
Definition iname_of (n : option name) : name := match n with Some n => n | None => INAME_DEFAULT end.

Lemma fit_iname : forall n, fit_name n -> (length (iname_of n) <= 15)%nat /\ Forall (fun c => 32 <= c <= 127) (iname_of n).
Proof.
  intros [n|] F; [exact F|]. cbn [iname_of]. split; [cbn; lia|]. unfold INAME_DEFAULT. repeat (apply Forall_cons; [lia|]). apply Forall_nil.
Qed.

Lemma served : forall n c s, fit_name n -> fit_command (u_xt u) c -> regular_here n c s ->
  serve h K true (op_of c) (header (u_version u) (u_xt u) (flags_of c) (iname_of n) ++ body c) s = Got (asked K (u_xt u) n c s).
Proof.
  intros n c s FN F R. destruct (fit_iname n FN) as [L P]. unfold serve. rewrite f_long by lia. rewrite f_rest by lia.
  rewrite (body_parsed (u_xt u)) by exact F. cbn [rbind]. rewrite (surjective_pairing (handler_of h K (op_of c))).
  rewrite start_ok by assumption. rewrite about_handler. unfold asked. destruct (negb (bit_and (u_xt u) (about c))); [reflexivity|].
  replace (match iname_of n with [] => INAME_DEFAULT | _ :: _ => iname_of n end) with (name_of n) by (destruct n as [[|]|]; reflexivity).
  destruct (k_find K (name_of n) (u_xt u) s) as [e|i] eqn:E; [reflexivity|]. apply handled; [exact F | apply R; exact E].
Qed.

Lemma client_ok : forall n c, fit_name n -> fit_command (u_xt u) c ->
  client_request h u n c = Some (op_of c, header (u_version u) (u_xt u) (flags_of c) (iname_of n) ++ body c).
Proof.
  intros n c FN F. unfold client_request. rewrite (surjective_pairing (function_of h c)), (surjective_pairing (fst (function_of h c))).
  fold (op_of c) (flags_of c). unfold joolnl_alloc_msg.
  destruct (n_memory K u w N) as [M _]. destruct (n_room K u w N) as [R _].
  assert (V : iname_validate_u n = true).
  { destruct n as [n|]; [|reflexivity]. cbn in FN. destruct FN as [L P]. cbn [iname_validate_u].
    replace (length n <? 16)%nat with true by (symmetry; apply Nat.ltb_lt; lia). cbn [andb]. apply forallb_forall. intros x X.
    rewrite Forall_forall in P. specialize (P x X). cbn in P. lia. }
  rewrite V, M. replace (u_cap u <? 28) with false by lia. cbn [negb orb].
  assert (T : u8 (u_xt u) = u_xt u) by (destruct type_value as [-> | ->]; reflexivity).
  assert (G : u8 (flags_of c) = flags_of c).
  { unfold flags_of. destruct c as [? ? []| | |? []| | |? []|? []|[]| | |? ? []]; reflexivity. }
  rewrite T, G. fold (iname_of n). fold (header (u_version u) (u_xt u) (flags_of c) (iname_of n)).
  rewrite (body_written (u_xt u)).
  - reflexivity.
  - exact F.
  - destruct (fit_iname n FN) as [L P]. unfold zlen. rewrite header_length by lia. lia.
Qed.

(** ** The answer *)

Lemma errcode_u16 : forall e, 0 <= errcode e < 256 ^ Z.of_nat 2.
Proof. intros []; cbn; lia. Qed.

Lemma last_app0 : forall l, last (l ++ [0]) 1 = 0.
Proof. intros. apply last_last. Qed.

Lemma error_read : forall v xt fl n e t, (length n <= 15)%nat -> zlen t <= 65000 -> Forall (fun c => 1 <= c <= 255) t ->
  joolnl_msg2result h (header v xt fl n ++ blk h 1 (host_octets h 2 (errcode e)) ++ blk h 2 (t ++ [0])) = Got (Refused (errcode e) t).
Proof.
  intros v xt fl n e t L Z F. unfold joolnl_msg2result. rewrite f_rest by lia. unfold nla_parse_u.
  rewrite attributes_blk by (rewrite ?zlen_host; lia). rewrite attributes_blk1 by (rewrite ?zlen_app; try lia; change (zlen [0]) with 1; lia). cbn [fst].
  rewrite (step_u _ _ 1); [|reflexivity|unfold JNLAERR_MAX; lia|cbn [validate_u error_policy assoc JNLAERR_CODE Z.eqb Pos.eqb a_data]; rewrite zlen_host; reflexivity].
  rewrite (step_u _ _ 2); [|reflexivity|unfold JNLAERR_MAX; lia|reflexivity]. cbn [parse_each_u].
  unfold JNLAERR_MSG, JNLAERR_CODE. cbn [tset Z.eqb Pos.eqb a_data]. rewrite last_app0. cbn [Z.eqb].
  rewrite get_host by apply errcode_u16. cbn [rbind]. rewrite cstring_app. { reflexivity. }
  eapply Forall_impl; [|exact F]. cbn. lia.
Qed.

Lemma error_flag : forall fl, 0 <= fl < 16 -> bit_and (u8 (Z.lor fl 1)) FLAGS_ERROR = true.
Proof.
  intros fl R. assert (C : In fl [0;1;2;3;4;5;6;7;8;9;10;11;12;13;14;15]) by (cbn; lia). cbn in C.
  repeat (destruct C as [<-|C]; [reflexivity|]). contradiction.
Qed.

Lemma Forall_first : forall (P : Z -> Prop) n l, Forall P l -> Forall P (firstn n l).
Proof. intros P n. induction n as [|n IH]; intros l F; [constructor|]. destruct l; [constructor|]. inversion F; subst. cbn. constructor; auto. Qed.

Lemma answered : forall n fl x r, (length n <= 15)%nat -> 0 <= fl < 16 -> bit_and fl FLAGS_ERROR = false ->
  exists a, jresponse_send_simple h w (header (u_version u) (u_xt u) fl n ++ x) r = Some a /\ response_handler h u a = Got (told w r).
Proof.
  intros n fl x r L R E. unfold jresponse_send_simple, jresponse_init.
  destruct (n_memory K u w N) as [_ M]. destruct (n_room K u w N) as [_ C]. pose proof (n_text K u w N) as T.
  rewrite M. replace (a_cap w <? 28) with false by lia. cbn [negb orb]. rewrite f_first by lia.
  assert (V : forall fl y, validate_joolnlhdr u (header (u_version u) (u_xt u) fl n ++ y) = true).
  { intros g y. unfold validate_joolnlhdr. rewrite f_magic, f_version, f_xt by (apply (n_version K u w N) || lia).
    destruct (list_eq_dec Z.eq_dec JOOLNL_HDR_MAGIC JOOLNL_HDR_MAGIC) as [_|X]; [|contradiction].
    unfold same_version. rewrite Z.eqb_refl. destruct type_value as [-> | ->]; reflexivity. }
  destruct r as [|e].
  - eexists. split; [reflexivity|]. unfold response_handler. rewrite <- (app_nil_r (header _ _ _ _)). rewrite f_long, V, f_flags, E by lia. reflexivity.
  - rewrite set_flag_header by lia. unfold nla_put_u16.
    assert (H28 : forall g, zlen (header (u_version u) (u_xt u) g n) = 28) by (intros; unfold zlen; rewrite header_length by lia; reflexivity).
    rewrite (written (a_cap w) _ _ _ (put_writes h (a_cap w) JNLAERR_CODE (host_octets h 2 (errcode e)))).
    2:{ rewrite H28, zlen_blk, zlen_host. unfold padding. lia. }
    set (b1 := header (u_version u) (u_xt u) (u8 (Z.lor fl 1)) n ++ blk h JNLAERR_CODE (host_octets h 2 (errcode e))).
    assert (B1 : zlen b1 = 36) by (unfold b1; rewrite zlen_app, H28, zlen_blk, zlen_host; reflexivity).
    assert (ZT : forall t, zlen (blk h JNLAERR_MSG (t ++ [0])) = 4 + (zlen t + 1) + (- (zlen t + 1)) mod 4).
    { intros t. rewrite zlen_blk, zlen_app. reflexivity. }
    assert (G : forall t, zlen t <= 65000 -> Forall (fun c => 1 <= c <= 255) t ->
              response_handler h u (b1 ++ blk h JNLAERR_MSG (t ++ [0])) = Got (Refused (errcode e) t)).
    { intros t Z F. unfold response_handler, b1. rewrite <- app_assoc. rewrite f_long, V, f_flags, error_flag by lia. cbn [negb]. apply error_read; assumption. }
    pose proof (put_writes h (a_cap w) JNLAERR_MSG (a_text w ++ [0])) as [_ W]. specialize (W b1).
    cbn [told]. rewrite B1, ZT in W.
    change (28 + 8 + (4 + (zlen (a_text w) + 1) + (- (zlen (a_text w) + 1)) mod 4)) with (36 + (4 + (zlen (a_text w) + 1) + (- (zlen (a_text w) + 1)) mod 4)).
    destruct (36 + (4 + (zlen (a_text w) + 1) + (- (zlen (a_text w) + 1)) mod 4) <=? a_cap w) eqn:Q.
    + rewrite W. eexists. split; [reflexivity|]. apply G; [|exact T]. pose proof (zlen_nonneg _ (a_text w)). lia.
    + destruct W as [z W]. rewrite W.
      assert (LF : zlen (firstn 128 (a_text w)) <= 128) by (unfold zlen; pose proof (firstn_le_length 128 (a_text w)); lia).
      rewrite (written (a_cap w) _ _ b1 (put_writes h (a_cap w) JNLAERR_MSG (firstn 128 (a_text w) ++ [0]))).
      * eexists. split; [reflexivity|]. apply G; [lia | apply Forall_first; exact T].
      * rewrite B1, ZT. lia.
Qed.

Lemma whole : forall n c s, fit_name n -> fit_command (u_xt u) c -> regular_here n c s ->
  request h K u w true n c s = let (r, s') := asked K (u_xt u) n c s in Got (told w r, s').
Proof.
  intros n c s FN F R. unfold request. rewrite client_ok by assumption. rewrite served by assumption.
  destruct (asked K (u_xt u) n c s) as [r s'].
  destruct (answered (iname_of n) (flags_of c) (body c) r) as (a & A & B).
  - apply fit_iname. exact FN.
  - unfold flags_of. destruct c as [? ? []| | |? []| | |? []|? []|[]| | |? ? []]; (split; [intro X; discriminate X | reflexivity]).
  - unfold flags_of. destruct c as [? ? []| | |? []| | |? []|? []|[]| | |? ? []]; reflexivity.
  - rewrite A, B. reflexivity.
Qed.
End All.
End Wire.


(** ** Removing from the EAMT by one prefix *)
Section One.
Context (h : host) {S I : Type} (K : kernel S I).

Lemma p_eamt : forall o6 o4, nla_parse_nested_k h JNLAE_MAX (Attr (flag_u 10) (d_eamt h o6 o4)) eam_policy =
  Got (tset (tset empty 1 (Attr (flag_u 1) (d_opt6 h o6))) 2 (Attr (flag_u 2) (d_opt4 h o4))).
Proof.
  intros o6 o4. pose proof (z_opt6 h o6). pose proof (z_opt4 h o4). unfold d_eamt.
  eapply (nested_k h flag_u 10); [apply flagger_u | lia | | ].
  - rewrite attributes_blk by first [apply (flag_range h flag_u _ (flagger_u h)); lia | lia].
    rewrite attributes_blk1 by first [apply (flag_range h flag_u _ (flagger_u h)); lia | lia]. reflexivity.
  - cbn [fst]. rewrite (step_k h _ _ 1); [|apply (nla_type_flag h flag_u _ _ (flagger_u h)); lia|unfold JNLAE_MAX; lia|apply (val_nested_k h flag_u _ _ (flagger_u h)); lia].
    rewrite (step_k h _ _ 2); [|apply (nla_type_flag h flag_u _ _ (flagger_u h)); lia|unfold JNLAE_MAX; lia|apply (val_nested_k h flag_u _ _ (flagger_u h)); lia].
    reflexivity.
Qed.

Lemma l_eamt_rm_one : forall b o6 o4 i s, fit_opt wt_prefix6 o6 -> fit_opt wt_prefix4 o4 -> (o6 = None \/ o4 = None) ->
  handle_eamt_rm h K b (operand (d_eamt h o6 o4)) i s = Got (Err EINVAL, s).
Proof.
  intros b o6 o4 i s F6 F4 N. unfold handle_eamt_rm. rewrite operand_at, p_eamt. cbn [reading].
  unfold JNLAE_PREFIX6, JNLAE_PREFIX4. cbn [tset Z.eqb Pos.eqb].
  destruct o6 as [p6|]; cbn [d_opt6 fit_opt] in *.
  - rewrite (mandatory_k6 h flag_u (flagger_u h) 1) by (assumption || lia). cbn [rbind reading].
    destruct o4 as [p4|]; cbn [d_opt4] in *; [destruct N; discriminate|].
    unfold jnla_get_prefix4. rewrite (r_none4_k h flag_u 2 (flagger_u h)) by lia. reflexivity.
  - unfold jnla_get_prefix6. rewrite (r_none6_k h flag_u 1 (flagger_u h)) by lia. reflexivity.
Qed.

Lemma whole_one : forall u w n o6 o4 s i, normal K u w -> fit_name n -> u_xt u = XT_SIIT ->
  k_find K (name_of n) XT_SIIT s = inr i ->
  fit_opt wt_prefix6 o6 -> fit_opt wt_prefix4 o4 -> (o6 = None \/ o4 = None) ->
  request h K u w true n (EamtRm o6 o4) s = Got (told w (Err EINVAL), s).
Proof.
  intros u w n o6 o4 s i N FN X FI F6 F4 O.
  destruct (fit_iname n FN) as [L P]. unfold request.
  rewrite (client_ok h K u w N) by (first [exact FN | split; assumption]).
  unfold serve. rewrite f_long by lia.
  rewrite f_rest by lia. change (body h (EamtRm o6 o4)) with (blk h (flag_u 10) (d_eamt h o6 o4)).
  rewrite root_nested.
  2:{ lia. } 2:{ reflexivity. } 2:{ pose proof (z_eamt h o6 o4). lia. }
  cbn [rbind]. change (op_of h (EamtRm o6 o4)) with JNLOP_EAMT_RM. cbn [handler_of].
  rewrite (start_ok K u w N) by assumption. rewrite X. cbn [negb bit_and].
  change (negb (bit_and XT_SIIT XT_SIIT)) with false. cbv iota.
  replace (match iname_of n with [] => INAME_DEFAULT | _ => iname_of n end) with (name_of n).
  2:{ destruct n as [[|c n]|]; reflexivity. }
  rewrite FI. change (tset empty 10 (Attr (flag_u 10) (d_eamt h o6 o4))) with (operand (d_eamt h o6 o4)).
  rewrite l_eamt_rm_one by assumption.
  destruct (answered h K u w N (iname_of n) (flags_of h (EamtRm o6 o4)) (blk h (flag_u 10) (d_eamt h o6 o4)) (Err EINVAL)) as (a & A & B).
  { exact L. } { cbn. lia. } { reflexivity. }
  rewrite X in A. rewrite A, B. reflexivity.
Qed.
End One.

(** ** Any octets *)
Section Any.
Context (h : host) {S I : Type} (K : kernel S I).

Definition yieldsx {A} (x : Prop) (P : A -> Prop) (r : rd A) : Prop := match r with Got a => P a | Bad _ => True | Stray => x end.
Lemma yx : forall A (P : A -> Prop) x r, yields P r -> yieldsx x P r.
Proof. intros A P x [a|e|] H; cbn in *; auto; contradiction. Qed.
Lemma reading_any : forall A (P : A -> Prop) x (Q : rc * S -> Prop) r s f, yieldsx x P r -> (forall e, Q (Err e, s)) -> (forall a, P a -> yieldsx x Q (f a)) ->
  yieldsx x Q (reading r s f).
Proof. intros A P x Q [a|e|] s f H E F; cbn in *; auto. Qed.

Lemma parse_sound : forall maxtype p l, Forall is_u8 l -> yields (sound h p) (nla_parse_k h maxtype p l).
Proof.
  intros maxtype p l H. unfold nla_parse_k. pose proof (attributes_ok h l H) as A. destruct (attributes h l) as [as_ rest]. cbn [fst] in A.
  apply yields_bind with (P := sound h p); [apply parse_each_sound; [exact A|intros i a X; discriminate X]|].
  intros t T. destruct rest; [exact T|]. destruct (h_strict h); [exact Logic.I|exact T].
Qed.

(** Settings *)
Definition kind_of (xt id : Z) : Prop :=
  (id = JNLAG_POOL6 \/ id = JNLAG_POOL6791V6) /\ Glob_Model.policy xt id = Some NLA_NESTED \/
  id = JNLAG_POOL6791V4 /\ Glob_Model.policy xt id = Some NLA_NESTED \/
  id = JNLAG_PLATEAUS /\ Glob_Model.policy xt id = Some NLA_NESTED \/
  (id =? JNLAG_POOL6) || (id =? JNLAG_POOL6791V6) || (id =? JNLAG_POOL6791V4) || (id =? JNLAG_PLATEAUS) = false /\
    (Glob_Model.policy xt id = Some NLA_U8 \/ Glob_Model.policy xt id = Some NLA_U32).
Lemma kinds : forall xt, xt = XT_SIIT \/ xt = XT_NAT64 -> Forall (fun m => bit_and (snd m) xt = true -> kind_of xt (fst m)) metadata.
Proof.
  intros xt [-> | ->]; unfold metadata; cbn [map app];
    repeat (constructor; [cbn [fst snd]; intros B; first [discriminate B | unfold kind_of; cbn;
      first [left; split; [first [left; reflexivity | right; reflexivity] | reflexivity]
            | right; left; split; reflexivity | right; right; left; split; reflexivity
            | right; right; right; split; [reflexivity | first [left; reflexivity | right; reflexivity]]]]|]); constructor.
Qed.

Lemma read_any : forall xt id a, h_strict h = true -> kind_of xt id -> octets_ok a -> validate_k h (globals_policy xt id) a = true ->
  yields (fit_reading xt id) (read_setting h xt id a).
Proof.
  intros xt id a ST KD OA VA. assert (SO : some_ok (Some a)) by (intros x X; injection X as <-; exact OA).
  unfold read_setting. destruct KD as [[C P]|[[C P]|[[C P]|[C P]]]].
  - replace ((id =? JNLAG_POOL6) || (id =? JNLAG_POOL6791V6)) with true by (destruct C as [-> | ->]; reflexivity).
    eapply yields_bind; [apply y_prefix6; exact SO|]. intros o O. cbn [yields]. left. split; [rewrite P; destruct o; reflexivity|].
    destruct o as [p|]; (split; [exact C|]); [left|right; split; reflexivity].
    exists (p6_len p), (p6_addr p). split; [reflexivity|]. split; [reflexivity|]. destruct p. apply O. reflexivity.
  - subst id. change ((JNLAG_POOL6791V4 =? JNLAG_POOL6) || (JNLAG_POOL6791V4 =? JNLAG_POOL6791V6)) with false.
    change (JNLAG_POOL6791V4 =? JNLAG_POOL6791V4) with true. cbv iota.
    eapply yields_bind; [apply y_prefix4; exact SO|]. intros o O. cbn [yields]. left. split; [rewrite P; destruct o; reflexivity|].
    destruct o as [p|]; (split; [reflexivity|]); [left|right; split; reflexivity].
    exists (p4_len p), (p4_addr p). split; [reflexivity|]. split; [reflexivity|]. destruct p. apply O. reflexivity.
  - subst id. change ((JNLAG_PLATEAUS =? JNLAG_POOL6) || (JNLAG_PLATEAUS =? JNLAG_POOL6791V6)) with false.
    change (JNLAG_PLATEAUS =? JNLAG_POOL6791V4) with false. change (JNLAG_PLATEAUS =? JNLAG_PLATEAUS) with true. cbv iota.
    eapply yields_bind; [apply y_plateaus; assumption|]. intros l [L1 L2]. cbn [yields]. destruct l as [|x l].
    + right. split; reflexivity.
    + left. split; [rewrite P; reflexivity|]. repeat split; try assumption; discriminate.
  - apply orb_false_iff in C as [C C3]. apply orb_false_iff in C as [C C2]. rewrite C, C2, C3.
    unfold globals_policy in *. destruct P as [P|P]; rewrite P in *.
    + assert (T : tset empty id a id = Some a) by (unfold tset; rewrite Z.eqb_refl; reflexivity).
      assert (SD : sound h (fun _ => PU8) (tset empty id a)).
      { intros j b. unfold tset. destruct (j =? id); [intros X; injection X as <-; split; assumption | intros X; discriminate X]. }
      destruct (sound_u8 h _ _ id a SD eq_refl T) as [_ LL].
      eapply yields_bind; [apply (get_yields h 1 a OA LL)|]. intros v V. cbn [yields]. left. split; [rewrite P; reflexivity|]. unfold is_u8. cbn in V. lia.
    + assert (T : tset empty id a id = Some a) by (unfold tset; rewrite Z.eqb_refl; reflexivity).
      assert (SD : sound h (fun _ => PU32) (tset empty id a)).
      { intros j b. unfold tset. destruct (j =? id); [intros X; injection X as <-; split; assumption | intros X; discriminate X]. }
      destruct (sound_u32 h _ _ id a SD eq_refl T) as [_ LL].
      eapply yields_bind; [apply (get_yields h 4 a OA LL)|]. intros v V. cbn [yields]. left. split; [rewrite P; reflexivity|]. unfold is_u32. cbn in V. lia.
Qed.

(** The loop, on the table of the values that were read *)
Definition value_at (xt : Z) (t : table) (id : Z) : option gval :=
  match t id with Some a => match read_setting h xt id a with Got v => Some v | _ => None end | None => None end.
Lemma each_any : forall force xt t metas g, h_strict h = true -> sound h (globals_policy xt) t ->
  Forall (fun m => bit_and (snd m) xt = true -> kind_of xt (fst m)) metas ->
  yields (fun x => match x with (OK, g') => update_each force xt (value_at xt t) metas g = (OK, g') | _ => True end)
    (update_each_octets h force xt t metas g).
Proof.
  intros force xt t metas. induction metas as [|[id m] metas IH]; intros g ST SD F; cbn [update_each_octets update_each]; [reflexivity|].
  inversion F as [|? ? F1 F2]; subst. cbn [fst snd] in F1.
  destruct (bit_and m xt) eqn:B; cbn [negb]; [|apply IH; assumption].
  unfold value_at at 1. destruct (t id) as [a|] eqn:T; [|apply IH; assumption].
  destruct (SD id a T) as [OA VA]. pose proof (read_any xt id a ST (F1 eq_refl) OA VA) as Y.
  destruct (read_setting h xt id a) as [v|e|]; [|exact Logic.I|contradiction].
  destruct (nl2raw force id v g) as [[|e] g2]; [apply IH; assumption|exact Logic.I].
Qed.
Lemma find_once : forall (f : Z -> option gval) ids j, NoDup ids ->
  option_map snd (find (fun a : Z * gval => fst a =? j) (rev (flat_map (fun id => match f id with Some v => [(id, v)] | None => [] end) ids))) =
  if existsb (Z.eqb j) ids then f j else None.
Proof.
  intros f ids j. induction ids as [|id ids IH]; intros ND; [reflexivity|]. inversion ND as [|? ? NI ND2]; subst. specialize (IH ND2).
  cbn [flat_map existsb]. rewrite rev_app_distr.
  assert (FA : forall (l1 l2 : list (Z * gval)) p, find p (l1 ++ l2) = match find p l1 with Some x => Some x | None => find p l2 end).
  { induction l1 as [|x l1 IHl]; intros l2 p; [reflexivity|]. cbn [app find]. destruct (p x); [reflexivity|apply IHl]. }
  rewrite FA. destruct (j =? id) eqn:E; cbn [orb].
  - assert (j = id) by lia. subst j.
    assert (X : existsb (Z.eqb id) ids = false).
    { destruct (existsb (Z.eqb id) ids) eqn:X; [|reflexivity]. apply existsb_exists in X as (y & Y1 & Y2). replace y with id in Y1 by lia. contradiction. }
    rewrite X in IH. destruct (find _ (rev (flat_map _ ids))) as [x|]; [discriminate IH|].
    destruct (f id) as [v|]; [|reflexivity]. cbn [rev app find fst]. rewrite Z.eqb_refl. reflexivity.
  - destruct (find _ (rev (flat_map _ ids))) as [x|]; [exact IH|]. rewrite <- IH.
    destruct (f id) as [v|]; [|reflexivity]. cbn [rev app find fst]. rewrite Z.eqb_sym, E. reflexivity.
Qed.
Lemma update_ext : forall force xt f f' metas g, (forall m, In m metas -> bit_and (snd m) xt = true -> f (fst m) = f' (fst m)) ->
  update_each force xt f metas g = update_each force xt f' metas g.
Proof.
  intros force xt f f' metas. induction metas as [|[id m] metas IH]; intros g H; [reflexivity|]. cbn [update_each].
  destruct (bit_and m xt) eqn:B; cbn [negb]; [|apply IH; intros; apply H; [right|]; assumption].
  pose proof (H (id, m) (or_introl eq_refl) B) as HH. cbn [fst] in HH. rewrite <- HH.
  destruct (f id) as [v|]; [destruct (nl2raw force id v g) as [[|e] g2]; [|reflexivity]|]; apply IH; intros; apply H; first [right; assumption | assumption].
Qed.
Definition ids_of (xt : Z) : list Z := map fst (filter (fun m => bit_and (snd m) xt) metadata).
Lemma ids_once : forall xt, xt = XT_SIIT \/ xt = XT_NAT64 -> NoDup (ids_of xt).
Proof.
  intros xt [-> | ->].
  - replace (ids_of XT_SIIT) with (nodup Z.eq_dec (ids_of XT_SIIT)) by reflexivity. apply NoDup_nodup.
  - replace (ids_of XT_NAT64) with (nodup Z.eq_dec (ids_of XT_NAT64)) by reflexivity. apply NoDup_nodup.
Qed.

Lemma globals_any : forall g xt force a, h_strict h = true -> octets_ok a ->
  yields (fun x => match x with
                   | (OK, g') => exists msg, Forall (fun a => fit_reading xt (fst a) (snd a)) msg /\ global_update g xt force msg = (OK, g')
                   | _ => True
                   end) (global_update_octets h g xt force a).
Proof.
  intros g xt force a ST OA. unfold global_update_octets. destruct ((xt =? XT_SIIT) || (xt =? XT_NAT64)) eqn:X; [|exact Logic.I].
  assert (XT : xt = XT_SIIT \/ xt = XT_NAT64) by (apply orb_true_iff in X as [X|X]; [left|right]; lia).
  pose proof (nested_sound h 32 a (globals_policy xt) OA) as NS.
  destruct (nla_parse_nested_k h 32 a (globals_policy xt)) as [t|e|]; [|exact Logic.I|contradiction]. cbn [yields] in NS.
  pose proof (each_any force xt t metadata g ST NS (kinds xt XT)) as Y.
  destruct (update_each_octets h force xt t metadata g) as [[[|e] g']|e|]; [|exact Logic.I|exact Logic.I|contradiction]. cbn [yields] in *.
  exists (flat_map (fun id => match value_at xt t id with Some v => [(id, v)] | None => [] end) (ids_of xt)).
  assert (FR : Forall (fun a => fit_reading xt (fst a) (snd a)) (flat_map (fun id => match value_at xt t id with Some v => [(id, v)] | None => [] end) (ids_of xt))).
  { apply Forall_forall. intros [id v] IN. apply in_flat_map in IN as (j & J & IN).
    destruct (value_at xt t j) as [v'|] eqn:VA; [|contradiction]. destruct IN as [IN|[]]. injection IN as <- <-. cbn [fst snd].
    unfold ids_of in J. apply in_map_iff in J as ([j' m] & <- & J). apply filter_In in J as [J B]. cbn [fst snd] in *.
    pose proof (kinds xt XT) as KS. rewrite Forall_forall in KS. specialize (KS _ J B). cbn [fst] in KS.
    unfold value_at in VA. destruct (t j') as [a'|] eqn:T; [|discriminate VA]. destruct (NS j' a' T) as [OA' V'].
    pose proof (read_any xt j' a' ST KS OA' V') as R. destruct (read_setting h xt j' a') as [v''|e|]; try discriminate VA. injection VA as <-. exact R. }
  split; [exact FR|]. unfold global_update. rewrite X. unfold jnla_parse_nested.
  replace (forallb _ _) with true.
  2:{ symmetry. apply forallb_forall. intros [id v] IN. rewrite Forall_forall in FR. specialize (FR _ IN). cbn [fst snd] in *.
      destruct FR as [[FR _]|[-> ->]]; [exact FR|]. destruct XT as [-> | ->]; reflexivity. }
  rewrite <- Y. apply update_ext. intros [id m] IN B. cbn [fst snd] in *.
  rewrite find_once.
  2:{ exact (ids_once xt XT). }
  replace (existsb (Z.eqb id) (ids_of xt)) with true; [reflexivity|].
  symmetry. apply existsb_exists. exists id. split; [|apply Z.eqb_refl]. unfold ids_of. apply in_map_iff. exists (id, m). split; [reflexivity|].
  apply filter_In. split; [exact IN|exact B].
Qed.

(** Handlers *)
Lemma home_eam : forall a e, jnla_get_eam h a = Got e -> exists p6 p4, e = EEam p6 p4.
Proof.
  intros a e H. unfold jnla_get_eam in H. repeat (match type of H with rbind ?x _ = _ => destruct x; cbn [rbind] in H; try discriminate H end). injection H as <-. eauto.
Qed.
Lemma home_pool4 : forall a e, jnla_get_pool4 h a = Got e -> exists m it g q p r, e = EPool4 m it g q p r.
Proof.
  intros a e H. unfold jnla_get_pool4 in H. repeat (match type of H with rbind ?x _ = _ => destruct x; cbn [rbind] in H; try discriminate H end). injection H as <-. eauto 10.
Qed.
Lemma home_bib : forall a e, jnla_get_bib h a = Got e -> exists a6 a4 q st, e = EBib a6 a4 q st.
Proof.
  intros a e H. unfold jnla_get_bib in H. repeat (match type of H with rbind ?x _ = _ => destruct x; cbn [rbind] in H; try discriminate H end). injection H as <-. eauto 10.
Qed.

Lemma handlers_any : forall o b t i s, sound h jool_policy t -> (o = JNLOP_GLOBAL_UPDATE -> h_strict h = true) ->
  yieldsx (o = JNLOP_BIB_RM) (fun x => (exists e, x = (Err e, s)) \/ obeyed K (hdr_xt b) i s o x) (snd (handler_of h K o) b t i s).
Proof.
  intros o b t i s SD ST.
  assert (SO : forall j, some_ok (t j)) by (intros j x X; exact (proj1 (SD j x X))).
  destruct o; cbn [handler_of snd].
  - unfold handle_global_update_octets. destruct (t JNLAR_GLOBALS) as [a|] eqn:T; [|left; eauto].
    pose proof (globals_any (k_globals K i s) (hdr_xt b) (forced b) a (ST eq_refl) (proj1 (SD _ _ T))) as Y.
    destruct (global_update_octets h (k_globals K i s) (hdr_xt b) (forced b) a) as [[[|e] g]|e|]; [|left; eauto|left; eauto|contradiction].
    cbn [yields] in Y. destruct Y as (msg & M1 & M2). right. econstructor; eassumption.
  - unfold handle_eamt_add. pose proof (y_eam h _ (SO JNLAR_OPERAND)) as Y. destruct (jnla_get_eam h (t JNLAR_OPERAND)) as [e|e|] eqn:E; cbn [reading]; [|left; eauto|contradiction].
    destruct (home_eam _ _ E) as (p6 & p4 & ->). right. cbn [yieldsx]. apply (ob_call K (hdr_xt b) i s (EamtAdd p6 p4 (forced b))); [exact Y|discriminate|discriminate].
  - unfold handle_eamt_rm. destruct (t JNLAR_OPERAND) as [a|] eqn:T; [|left; eauto].
    eapply reading_any; [apply yx, nested_sound, (proj1 (SD _ _ T))|left; eauto|]. intros t2 S2.
    assert (SO2 : forall j, some_ok (t2 j)) by (intros j x X; exact (proj1 (S2 j x X))).
    assert (Y6 : yields (fit_opt wt_prefix6) (match t2 JNLAE_PREFIX6 with Some _ => rbind (jnla_get_prefix6 h (t2 JNLAE_PREFIX6)) (fun p => Got (Some p)) | None => Got None end)).
    { destruct (t2 JNLAE_PREFIX6) as [x|] eqn:T2; [|exact Logic.I]. rewrite <- T2. eapply yields_bind; [apply y_mandatory6, SO2|]. intros p P. exact P. }
    assert (Y4 : yields (fit_opt wt_prefix4) (match t2 JNLAE_PREFIX4 with Some _ => rbind (jnla_get_prefix4 h (t2 JNLAE_PREFIX4)) (fun p => Got (Some p)) | None => Got None end)).
    { destruct (t2 JNLAE_PREFIX4) as [x|] eqn:T2; [|exact Logic.I]. rewrite <- T2. eapply yields_bind; [apply y_mandatory4, SO2|]. intros p P. exact P. }
    destruct (t2 JNLAE_PREFIX6) as [x6|], (t2 JNLAE_PREFIX4) as [x4|]; try (left; eauto; fail);
      (eapply reading_any; [apply yx; exact Y6|left; eauto|]; intros p6 P6; eapply reading_any; [apply yx; exact Y4|left; eauto|]; intros p4 P4;
       right; apply (ob_call K (hdr_xt b) i s (EamtRm p6 p4)); [split; assumption|discriminate|discriminate]).
  - right. apply (ob_call K (hdr_xt b) i s EamtFlush); [exact Logic.I|discriminate|discriminate].
  - unfold handle_denylist4_add. eapply reading_any; [apply yx, y_mandatory4, SO|left; eauto|]. intros p P.
    right. apply (ob_call K (hdr_xt b) i s (DenyAdd p (forced b))); [exact P|discriminate|discriminate].
  - unfold handle_denylist4_rm. eapply reading_any; [apply yx, y_mandatory4, SO|left; eauto|]. intros p P.
    right. apply (ob_call K (hdr_xt b) i s (DenyRm p)); [exact P|discriminate|discriminate].
  - right. apply (ob_call K (hdr_xt b) i s DenyFlush); [exact Logic.I|discriminate|discriminate].
  - unfold handle_pool4_add. pose proof (y_pool4 h _ (SO JNLAR_OPERAND)) as Y. destruct (jnla_get_pool4 h (t JNLAR_OPERAND)) as [e|e|] eqn:E; cbn [reading]; [|left; eauto|contradiction].
    destruct (home_pool4 _ _ E) as (m & it & g & q & p & r & ->). right. apply (ob_call K (hdr_xt b) i s (Pool4Add (EPool4 m it g q p r) (forced b))); [split; [reflexivity|exact Y]|discriminate|discriminate].
  - unfold handle_pool4_rm. pose proof (y_pool4 h _ (SO JNLAR_OPERAND)) as Y. destruct (jnla_get_pool4 h (t JNLAR_OPERAND)) as [e|e|] eqn:E; cbn [reading]; [|left; eauto|contradiction].
    destruct (home_pool4 _ _ E) as (m & it & g & q & p & r & ->). destruct (k_pool4_rm K i (EPool4 m it g q p r) s) as [x s'] eqn:R. right.
    eapply ob_pool4; [exact Y|exact R|]. unfold ports_left. destruct (prefix4_validate p); [|left; reflexivity]. destruct (fst r >? snd r); [right|left]; reflexivity.
  - right. unfold handle_pool4_flush.
    pose proof (ob_call K (hdr_xt b) i s (Pool4Flush (quick b)) Logic.I ltac:(discriminate) ltac:(discriminate)) as O.
    cbn [operation_of call] in O. destruct (quick b); exact O.
  - unfold handle_bib_add. pose proof (y_bib h _ (SO JNLAR_OPERAND)) as Y. destruct (jnla_get_bib h (t JNLAR_OPERAND)) as [e|e|] eqn:E; cbn [reading]; [|left; eauto|contradiction].
    destruct (home_bib _ _ E) as (a6 & a4 & q & st & ->). destruct (k_pool4_contains K i q a4 s) eqn:C; [|left; eauto]. right.
    destruct Y as (Y1 & Y2 & Y3). apply ob_bib; assumption.
  - unfold handle_bib_rm. destruct (t JNLAR_OPERAND) as [a|] eqn:T; [|left; eauto].
    eapply reading_any; [apply yx, nested_sound, (proj1 (SD _ _ T))|left; eauto|]. intros t2 S2.
    assert (SO2 : forall j, some_ok (t2 j)) by (intros j x X; exact (proj1 (S2 j x X))).
    set (Q6 := fun o => fit_opt fit_taddr6 o /\ (o = None <-> t2 JNLAB_SRC6 = None)).
    set (Q4 := fun o => fit_opt fit_taddr4 o /\ (o = None <-> t2 JNLAB_SRC4 = None)).
    assert (Y6 : yields Q6 (match t2 JNLAB_SRC6 with Some _ => rbind (jnla_get_taddr6 h (t2 JNLAB_SRC6)) (fun p => Got (Some p)) | None => Got None end)).
    { unfold Q6. destruct (t2 JNLAB_SRC6) as [x|] eqn:T2; [|split; [exact Logic.I|split; reflexivity]]. rewrite <- T2.
      eapply yields_bind; [apply y_taddr6, SO2|]. intros p P. split; [exact P|]. rewrite T2. split; discriminate. }
    assert (Y4 : yields Q4 (match t2 JNLAB_SRC4 with Some _ => rbind (jnla_get_taddr4 h (t2 JNLAB_SRC4)) (fun p => Got (Some p)) | None => Got None end)).
    { unfold Q4. destruct (t2 JNLAB_SRC4) as [x|] eqn:T2; [|split; [exact Logic.I|split; reflexivity]]. rewrite <- T2.
      eapply yields_bind; [apply y_taddr4, SO2|]. intros p P. split; [exact P|]. rewrite T2. split; discriminate. }
    assert (YP : yieldsx (JNLOP_BIB_RM = JNLOP_BIB_RM) is_u8 (nla_get_ptr h 1 (t2 JNLAB_PROTO))).
    { destruct (t2 JNLAB_PROTO) as [x|] eqn:T2; [|reflexivity]. cbn [nla_get_ptr]. unfold nla_get. destruct (length (a_data x) <? 1)%nat eqn:L; [reflexivity|].
      pose proof (get_yields h 1 x (proj1 (S2 _ _ T2))) as GY. unfold nla_get in GY. rewrite L in GY. apply GY. lia. }
    assert (REST : t2 JNLAB_SRC6 <> None \/ t2 JNLAB_SRC4 <> None -> yieldsx (JNLOP_BIB_RM = JNLOP_BIB_RM) (fun x => (exists e, x = (Err e, s)) \/ obeyed K (hdr_xt b) i s JNLOP_BIB_RM x)
      (reading (match t2 JNLAB_SRC6 with Some _ => rbind (jnla_get_taddr6 h (t2 JNLAB_SRC6)) (fun x => Got (Some x)) | None => Got None end) s (fun a6 =>
       reading (match t2 JNLAB_SRC4 with Some _ => rbind (jnla_get_taddr4 h (t2 JNLAB_SRC4)) (fun x => Got (Some x)) | None => Got None end) s (fun a4 =>
       reading (nla_get_ptr h 1 (t2 JNLAB_PROTO)) s (fun proto =>
      match a6, a4 with
      | Some a6, Some a4 => Got (k_bib_rm K i proto a6 a4 s)
      | Some a6, None => match k_bib_find6 K i proto a6 s with inr (a6, a4) => Got (k_bib_rm K i proto a6 a4 s) | inl e => Got (Err e, s) end
      | None, Some a4 => match k_bib_find4 K i proto a4 s with inr (a6, a4) => Got (k_bib_rm K i proto a6 a4 s) | inl e => Got (Err e, s) end
      | None, None => Stray
      end))))).
    { intros NN. eapply reading_any; [apply yx; exact Y6|left; eauto|]. intros a6 [F6 N6]. eapply reading_any; [apply yx; exact Y4|left; eauto|]. intros a4 [F4 N4].
      eapply reading_any; [exact YP|left; eauto|]. intros q Q.
      assert (NN2 : a6 <> None \/ a4 <> None) by (destruct NN as [NN|NN]; [left; intros X; apply NN, N6, X|right; intros X; apply NN, N4, X]).
      assert (FC : fit_command (hdr_xt b) (BibRm a6 a4 q)) by (repeat split; assumption || apply Q).
      pose proof (ob_call K (hdr_xt b) i s (BibRm a6 a4 q) FC ltac:(discriminate) ltac:(discriminate)) as O. cbn [operation_of call] in O.
      destruct a6 as [a6|], a4 as [a4|]; [right; exact O| | |reflexivity].
      - destruct (k_bib_find6 K i q a6 s) as [e|[x y]]; right; exact O.
      - destruct (k_bib_find4 K i q a4 s) as [e|[x y]]; right; exact O. }
    destruct (t2 JNLAB_SRC6) as [x6|] eqn:T6, (t2 JNLAB_SRC4) as [x4|] eqn:T4; try (left; eauto; fail); apply REST; first [left; discriminate | right; discriminate].
Qed.

Lemma serve_any : forall admin o b s, Forall is_u8 b -> (o = JNLOP_GLOBAL_UPDATE -> h_strict h = true) ->
  yieldsx (o = JNLOP_BIB_RM) (refused_or_obeyed K o b s) (serve h K admin o b s).
Proof.
  intros admin o b s H ST. unfold serve. destruct (zlen b <? 28); [exact Logic.I|].
  pose proof (parse_sound JNLAR_MAX jool_policy (skipn 28 b) (Forall_skipn' _ 28 _ H)) as P.
  destruct (nla_parse_k h JNLAR_MAX jool_policy (skipn 28 b)) as [t|e|]; [|exact Logic.I|contradiction]. cbn [rbind yields] in *.
  pose proof (fun i => handlers_any o b t i s P ST) as HA. destruct (handler_of h K o) as [xt f]. cbn [snd] in HA.
  destruct (request_handle_start K admin b xt s) as [e|i] eqn:R; [left; eauto|].
  assert (FI : k_find K (get_iname b) (hdr_xt b) s = inr i).
  { unfold request_handle_start in R. repeat match type of R with (if ?c then _ else _) = _ => destruct c; [discriminate R|] end. exact R. }
  specialize (HA i). destruct (f b t i s) as [x|e|]; [|exact Logic.I|exact HA]. destruct HA as [HA|HA]; [left; exact HA|right]. exists i. split; [exact FI|exact HA].
Qed.
End Any.
