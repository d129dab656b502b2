(** Proofs about configuration files: whole files. *)
Require Import Verif.Base Verif.Addr_Model Verif.Glob_Model Verif.Inst_Model Verif.Str_Model Verif.Json_Model Verif.File_Model Verif.File_Spec Verif.File_Objects Verif.File_Proofs.
Require Import String Ascii.
Local Open Scope Z_scope.
Local Open Scope list_scope.

(** ** Sections are unique *)
Section Unique.
Context (U : uenv).
Notation R := (as_read (u_inet U)).
Lemma settings_mean_unique v gs gs' : settings_mean R v gs -> settings_mean R v gs' -> gs = gs'.
Proof. intros (l & -> & A & _) (l' & [= <-] & B & _). eapply settings_unique; eassumption. Qed.
Lemma lists_functional xt t k P : In (t, k, P) (lists R xt) -> exists h : json -> ferr + entry, forall v x, h v = inr x <-> P v x.
Proof.
  unfold lists. destruct (xt =? 1); [|destruct (xt =? 2); [|intros []]]; cbn [In]; intros I; repeat (destruct I as [I|I]); try (exfalso; exact I); injection I as <- <- <-.
  - exists (handle_eam_entry U). apply eam_iff.
  - exists (handle_denylist_entry U). apply deny_iff.
  - exists (handle_denylist_entry U). apply deny_iff.
  - exists (handle_pool4_entry U). apply pool4_iff.
  - exists (handle_bib_entry U). apply bib_iff.
Qed.
Lemma lists_one xt t k P t' k' P' : In (t, k, P) (lists R xt) -> In (t', k', P') (lists R xt) -> map lower (txt t) = map lower (txt t') -> k = k' /\ P = P'.
Proof.
  unfold lists. destruct (xt =? 1); [|destruct (xt =? 2); [|intros []]]; cbn [In]; intros I I' E; repeat (destruct I as [I|I]); try (exfalso; exact I); injection I as <- <- <-;
    repeat (destruct I' as [I'|I']); try (exfalso; exact I'); injection I' as <- <- <-; first [split; reflexivity|vm_compute in E; discriminate E].
Qed.
Lemma lists_other xt t k P c : In (t, k, P) (lists R xt) -> In c ["comment"; "instance"; "framework"; "global"]%string -> map lower (txt t) <> map lower (txt c).
Proof.
  unfold lists. destruct (xt =? 1); [|destruct (xt =? 2); [|intros []]]; cbn [In]; intros I I' E; repeat (destruct I as [I|I]); try (exfalso; exact I); injection I as <- <- <-;
    repeat (destruct I' as [<-|I']); try (exfalso; exact I'); vm_compute in E; discriminate E.
Qed.
Lemma global_other c : In c ["comment"; "instance"; "framework"]%string -> map lower (txt c) <> map lower (txt "global").
Proof. intros I E. repeat (destruct I as [<-|I]); try (exfalso; exact I); vm_compute in E; discriminate E. Qed.
Lemma same_all P : forall js es es', (exists h : json -> ferr + entry, forall v x, h v = inr x <-> P v x) -> Forall2 P js es -> Forall2 P js es' -> es = es'.
Proof.
  intros js es es' [h Hh] F. revert es'. induction F as [|v x js es A F IH]; intros es' F'; inversion F' as [|? y ? es2 B F2]; subst; [reflexivity|].
  f_equal; [apply Hh in A, B; congruence|apply IH; exact F2].
Qed.
Lemma others n : same_word n "comment" \/ same_word n "instance" \/ same_word n "framework" -> exists c, In c ["comment"; "instance"; "framework"]%string /\ same_word n c.
Proof.
  intros [H|[H|H]]; [exists "comment"%string|exists "instance"%string|exists "framework"%string]; (split; [|exact H]); cbn [In]; tauto.
Qed.
Lemma sections_unique xt : forall l ss ss', sections R xt l ss -> sections R xt l ss' -> ss = ss'.
Proof.
  induction l as [|p l IH]; intros ss ss' H H'; [inversion H; inversion H'; reflexivity|].
  inversion H as [|? ? ? ? C L|? ? ? ? gs W G L|? ? ? ? t k P js es I W Ev F L]; subst; inversion H' as [|? ? ? ? C' L'|? ? ? ? gs' W' G' L'|? ? ? ? t' k' P' js' es' I' W' Ev' F' L']; subst.
  - apply IH; assumption.
  - exfalso. destruct (others _ C) as (c & Ic & Wc). apply (global_other c Ic). eapply same_same; eassumption.
  - exfalso. destruct (others _ C) as (c & Ic & Wc). apply (lists_other _ _ _ _ c I'); [cbn [In] in *; tauto|]. eapply same_same; eassumption.
  - exfalso. destruct (others _ C') as (c & Ic & Wc). apply (global_other c Ic). eapply same_same; eassumption.
  - f_equal; [f_equal; eapply settings_mean_unique; eassumption|apply IH; assumption].
  - exfalso. apply (lists_other _ _ _ _ "global" I'); [cbn [In]; tauto|]. eapply same_same; eassumption.
  - exfalso. destruct (others _ C') as (c & Ic & Wc). apply (lists_other _ _ _ _ c I); [cbn [In] in *; tauto|]. eapply same_same; eassumption.
  - exfalso. apply (lists_other _ _ _ _ "global" I); [cbn [In]; tauto|]. eapply same_same; eassumption.
  - injection Ev' as <-. destruct (lists_one _ _ _ _ _ _ _ I I' (same_same _ _ _ W W')) as [<- <-].
    f_equal; [f_equal; eapply same_all; [eapply lists_functional; exact I|exact F|exact F']|apply IH; assumption].
Qed.
End Unique.

(** ** Reading exactly is a way of reading *)
Section Monotone.
Context (R R' : reading).
Context (H6 : forall s x, r_prefix6 R s x -> r_prefix6 R' s x) (H4 : forall s x, r_prefix4 R s x -> r_prefix4 R' s x)
  (A6 : forall s x, r_address6 R s x -> r_address6 R' s x) (A4 : forall s x, r_address4 R s x -> r_address4 R' s x)
  (Hp : forall s x, r_ports R s x -> r_ports R' s x) (Ht : forall s x, r_time R s x -> r_time R' s x)
  (Hn : forall v u, 0 <= u <= 2 ^ 32 - 1 -> r_number R v u -> r_number R' v u) (Hm : forall v u, 0 <= u <= 2 ^ 32 - 1 -> r_mark R v u -> r_mark R' v u).
Lemma text_mono {T} (P P' : list Z -> T -> Prop) : (forall s x, P s x -> P' s x) -> forall v x, text P v x -> text P' v x.
Proof. intros H v x (s & -> & A). exists s. split; [reflexivity|apply H; exact A]. Qed.
Lemma mandatory_mono {T} l k (P P' : json -> T -> Prop) x : (forall v x, P v x -> P' v x) -> mandatory l k P x -> mandatory l k P' x.
Proof. intros H (v & A & B). exists v. split; [exact A|apply H; exact B]. Qed.
Lemma optional_mono {T} l k (P P' : json -> T -> Prop) d x : (forall v x, P v x -> P' v x) -> optional l k P d x -> optional l k P' d x.
Proof. intros H [(v & A & B)|A]; [left; exists v; split; [exact A|apply H; exact B]|right; exact A]. Qed.
Lemma number_mono a b : 0 <= a -> b <= 2 ^ 32 - 1 -> forall v u, between a b (r_number R) v u -> between a b (r_number R') v u.
Proof. intros Ha Hb v u [A B]. split; [apply Hn; [lia|exact A]|exact B]. Qed.
Lemma mark_mono v u : between 0 (2 ^ 32 - 1) (r_mark R) v u -> between 0 (2 ^ 32 - 1) (r_mark R') v u.
Proof. intros [A B]. split; [apply Hm; [lia|exact A]|exact B]. Qed.
Lemma iterations_mono v x : iterations R v x -> iterations R' v x.
Proof. intros [(u & A & B)|A]; [left; exists u; split; [eapply number_mono; [| |exact A]; lia|exact B]|right; exact A]. Qed.
Lemma eam_mono v x : eam_means R v x -> eam_means R' v x.
Proof.
  intros (l & p6 & p4 & E & Ex & O & M6 & M4). exists l, p6, p4. split; [exact E|]. split; [exact Ex|]. split; [exact O|].
  split; (eapply mandatory_mono; [|eassumption]); apply text_mono; assumption.
Qed.
Lemma deny_mono v x : deny_means R v x -> deny_means R' v x.
Proof. intros (p & A & ->). exists p. split; [eapply text_mono; [|exact A]; exact H4|reflexivity]. Qed.
Lemma pool4_mono v x : pool4_means R v x -> pool4_means R' v x.
Proof.
  intros (l & mark & it & proto & p & ports & E & Ex & O & M0 & M1 & M2 & M3 & M4). exists l, mark, it, proto, p, ports. split; [exact E|]. split; [exact Ex|]. split; [exact O|].
  split; [eapply optional_mono; [exact mark_mono|exact M0]|]. split; [eapply optional_mono; [exact iterations_mono|exact M1]|]. split; [exact M2|].
  split; [eapply mandatory_mono; [|exact M3]; apply text_mono; exact H4|]. eapply optional_mono; [|exact M4]. apply text_mono. exact Hp.
Qed.
Lemma bib_mono v x : bib_means R v x -> bib_means R' v x.
Proof.
  intros (l & a6 & a4 & proto & E & Ex & O & M6 & M4 & Mp). exists l, a6, a4, proto. split; [exact E|]. split; [exact Ex|]. split; [exact O|].
  split; [eapply mandatory_mono; [|exact M6]; apply text_mono; exact A6|]. split; [eapply mandatory_mono; [|exact M4]; apply text_mono; exact A4|exact Mp].
Qed.
Lemma value_mono t v g : value_means R t v g -> value_means R' t v g.
Proof.
  destruct t; unfold value_means.
  - intros H; exact H.
  - intros (u & A & ->). exists u. split; [eapply number_mono; [| |exact A]; lia|reflexivity].
  - intros (u & A & ->). exists u. split; [eapply number_mono; [| |exact A]; lia|reflexivity].
  - intros (n & A & ->). exists n. split; [eapply text_mono; [exact Ht|exact A]|reflexivity].
  - intros (l & us & -> & F & ->). exists l, us. split; [reflexivity|]. split; [|reflexivity]. induction F as [|v u l us A F IH]; [constructor|]. constructor; [eapply number_mono; [| |exact A]; lia|exact IH].
  - intros [H|(p & A & B & C)]; [left; exact H|right]. exists p. split; [eapply text_mono; [exact H6|exact A]|]. split; assumption.
  - intros [H|(p & A & B & C)]; [left; exact H|right]. exists p. split; [eapply text_mono; [exact H4|exact A]|]. split; assumption.
  - intros H; exact H.
Qed.
Lemma settings_mono v gs : settings_mean R v gs -> settings_mean R' v gs.
Proof.
  intros (l & -> & L & O). exists l. split; [reflexivity|]. split; [|exact O]. clear O. induction L as [|n w l gs C L IH|n w l gs k0 id Ik W Ev L IH|n w l gs k0 id t g Ik W Vg NE L IH].
  - constructor.
  - apply sl_comment; assumption.
  - eapply sl_empty; eassumption.
  - eapply sl_value; [exact Ik|exact W|apply value_mono; exact Vg|exact NE|exact IH].
Qed.
Lemma lists_mono xt t k P : In (t, k, P) (lists R xt) -> exists P', In (t, k, P') (lists R' xt) /\ forall v x, P v x -> P' v x.
Proof.
  unfold lists. destruct (xt =? 1); [|destruct (xt =? 2); [|intros []]]; cbn [In]; intros I; repeat (destruct I as [I|I]); try (exfalso; exact I); injection I as <- <- <-.
  - exists (eam_means R'). split; [left; reflexivity|exact eam_mono].
  - exists (deny_means R'). split; [right; left; reflexivity|exact deny_mono].
  - exists (deny_means R'). split; [right; right; left; reflexivity|exact deny_mono].
  - exists (pool4_means R'). split; [left; reflexivity|exact pool4_mono].
  - exists (bib_means R'). split; [right; left; reflexivity|exact bib_mono].
Qed.
Lemma sections_mono xt l ss : sections R xt l ss -> sections R' xt l ss.
Proof.
  induction 1 as [|n v l ss C L IH|n v l ss gs W G L IH|n v l ss t k P js es I W Ev F L IH].
  - constructor.
  - apply s_other; assumption.
  - apply s_global; [exact W|apply settings_mono; exact G|exact IH].
  - destruct (lists_mono _ _ _ _ I) as (P' & I' & HP). eapply s_list; [exact I'|exact W|exact Ev| |exact IH]. clear - F HP. induction F as [|v0 x0 js es A F IH]; [constructor|]. constructor; [apply HP; exact A|exact IH].
Qed.
Lemma tags_mono xt : tags R xt = tags R' xt.
Proof. unfold tags, lists. destruct (xt =? 1); [reflexivity|]. destruct (xt =? 2); reflexivity. Qed.
Lemma file_mono xt arg v n fw ss : file_means R xt arg v n fw ss -> file_means R' xt arg v n fw ss.
Proof.
  intros (l & E & O & I & G & A & F & Hs). exists l. split; [exact E|]. split; [rewrite <- tags_mono; exact O|]. split; [exact I|]. split; [exact G|]. split; [exact A|]. split; [exact F|].
  apply sections_mono. exact Hs.
Qed.
End Monotone.
Lemma exactly_as_read N xt arg v n fw ss : file_means (exactly N) xt arg v n fw ss -> file_means (as_read N) xt arg v n fw ss.
Proof.
  apply file_mono; cbn [r_prefix6 r_prefix4 r_address6 r_address4 r_ports r_time r_number r_mark exactly as_read]; try (intros; assumption).
  - intros v0 u B H. apply number_part; assumption.
  - intros v0 u B [H L]. apply number_mark; [exact H|lia].
Qed.

(** ** The first pass *)
Section First.
Definition first_metas (arg : option name) : list (meta first_pass) :=
  [Meta (txt "instance") (handle_instance_tag arg) false; Meta (txt "framework") handle_framework_tag true] ++
  map (fun n => Meta n do_nothing false) [txt "global"; txt "eamt"; txt "blacklist4"; txt "denylist4"; txt "pool4"; txt "bib"].
Definition first_tags : list string := ["instance"; "framework"; "global"; "eamt"; "blacklist4"; "denylist4"; "pool4"; "bib"]%string.
Lemma first_names arg : names_ok (map mt_name (first_metas arg)) = true.
Proof. reflexivity. Qed.
Lemma iname_ok n : iname_validate n = OK <-> good_name n.
Proof.
  unfold iname_validate, good_name. destruct ((List.length n <? 16)%nat && forallb (fun c => 32 <=? c) n) eqn:E.
  - split; [intros _|reflexivity]. apply andb_true_iff in E as [A B]. split; [apply Nat.ltb_lt; exact A|]. apply Forall_forall. intros c I. rewrite forallb_forall in B. specialize (B c I). lia.
  - split; [discriminate|]. intros [A B]. exfalso. apply andb_false_iff in E as [E|E]; [apply Nat.ltb_ge in E; lia|].
    assert (forallb (fun c => 32 <=? c) n = true); [|congruence]. apply forallb_forall. intros c I. rewrite Forall_forall in B. specialize (B c I). lia.
Qed.
Lemma instance_ok arg v s s1 : handle_instance_tag arg v s = (None, s1) <-> exists n, v = JStr n /\ good_name n /\ (forall a, arg = Some a -> a = n) /\ s1 = First (Some n) (fp_flags s).
Proof.
  unfold handle_instance_tag. split.
  - destruct v as [| | |? ? ?|n|?|?]; try discriminate. destruct (iname_validate n) eqn:V; [|discriminate]. apply iname_ok in V. intros H. exists n. split; [reflexivity|]. split; [exact V|].
    destruct arg as [a|].
    + destruct (str_eqb a n) eqn:E; cbn [negb] in H; [|discriminate]. apply str_eqb_iff in E. subst a. injection H as <-. split; [intros a [= <-]; reflexivity|reflexivity].
    + injection H as <-. split; [discriminate|reflexivity].
  - intros (n & -> & G & A & ->). apply iname_ok in G. rewrite G. destruct arg as [a|]; [|reflexivity]. rewrite (A a eq_refl). replace (str_eqb n n) with true; [reflexivity|]. symmetry. apply str_eqb_iff. reflexivity.
Qed.
Lemma framework_ok v s s1 : handle_framework_tag v s = (None, s1) <-> exists f, text framework v f /\ s1 = First (fp_name s) (Z.lor (fp_flags s) f).
Proof.
  unfold handle_framework_tag, text, framework. split.
  - destruct v as [| | |? ? ?|n|?|?]; try discriminate. destruct (str_eqb n (txt "netfilter")) eqn:E; [apply str_eqb_iff in E; intros [= <-]; exists 4; split; [exists n; split; [reflexivity|left; split; [exact E|reflexivity]]|reflexivity]|].
    destruct (str_eqb n (txt "iptables")) eqn:E2; [apply str_eqb_iff in E2; intros [= <-]; exists 8; split; [exists n; split; [reflexivity|right; split; [exact E2|reflexivity]]|reflexivity]|discriminate].
  - intros (f & (n & -> & [[-> ->]|[-> ->]]) & ->); reflexivity.
Qed.
Lemma framework_unique v f f' : text framework v f -> text framework v f' -> f = f'.
Proof. intros (s & -> & [[-> ->]|[-> ->]]) (s' & [= <-] & [[E ->]|[E ->]]); try reflexivity; discriminate E. Qed.

Lemma do_nothing_metas arg m : In m (first_metas arg) -> m = Meta (txt "instance") (handle_instance_tag arg) false \/ m = Meta (txt "framework") handle_framework_tag true \/
  mt_handler m = do_nothing /\ mt_mandatory m = false.
Proof.
  unfold first_metas. cbn [app map In]. intros I. destruct I as [<-|[<-|I]]; [left; reflexivity|right; left; reflexivity|right; right].
  repeat (destruct I as [<-|I]; [split; reflexivity|]). destruct I.
Qed.
Lemma first_words arg m : In m (first_metas arg) -> exists k, In k first_tags /\ mt_name m = txt k.
Proof.
  unfold first_metas, first_tags. cbn [app map In]. intros I. repeat (destruct I as [<-|I]; [eexists; split; [|reflexivity]; tauto|]). destruct I.
Qed.

Lemma prepare_fwd arg xt v n flags : prepare_instance arg xt v = inr (n, flags) -> exists l fw, v = JObj l /\ mandatory l "framework" (text framework) fw /\ flags = Z.lor xt fw /\
  good_name n /\ ((has l "instance" (JStr n) /\ forall a, arg = Some a -> a = n) \/ lacks l "instance" /\ arg = Some n).
Proof.
  unfold prepare_instance. intros H. destruct (match arg with Some a => iname_validate a | None => OK end) eqn:V; [|discriminate].
  change (handle_object v _ (First None xt)) with (handle_object v (first_metas arg) (First None xt)) in H.
  destruct (handle_object v (first_metas arg) (First None xt)) as [[e|] s'] eqn:O; [discriminate|].
  apply object_iff in O; [|apply names_ok_D, first_names|apply names_ok_Q, first_names]. destruct O as (l & -> & St & M).
  assert (OKn := first_names arg).
  pose proof (steps_field _ (names_ok_D _ OKn) (names_ok_Q _ OKn) fp_name (Meta (txt "instance") (handle_instance_tag arg) false) (or_introl eq_refl)) as FN.
  specialize (FN ltac:(intros m' v0 s s1 I NE E; destruct (do_nothing_metas arg m' I) as [->|[->|[Eh _]]];
    [exfalso; apply NE; reflexivity|apply framework_ok in E as (f & _ & ->); reflexivity|rewrite Eh in E; injection E as <-; reflexivity]) _ _ _ _ St).
  pose proof (steps_field _ (names_ok_D _ OKn) (names_ok_Q _ OKn) fp_flags (Meta (txt "framework") handle_framework_tag true) (or_intror (or_introl eq_refl))) as FF.
  specialize (FF ltac:(intros m' v0 s s1 I NE E; destruct (do_nothing_metas arg m' I) as [->|[->|[Eh _]]];
    [apply instance_ok in E as (x & _ & _ & _ & ->); reflexivity|exfalso; apply NE; reflexivity|rewrite Eh in E; injection E as <-; reflexivity]) _ _ _ _ St).
  assert (Mf := M (Meta (txt "framework") handle_framework_tag true) (or_intror (or_introl eq_refl)) eq_refl).
  destruct FF as [[FF _]|(_ & a & k & w & b & s1 & s2 & -> & Hk & Hs & E & Ef)]; [congruence|].
  apply framework_ok in E as (fw & Hfw & ->). cbn [fp_flags] in Ef.
  assert (Hl : has (a ++ (k, w) :: b) "framework" w) by (apply (has_iff (Meta (txt "framework") handle_framework_tag true) "framework" _ w eq_refl); exists a, k, b; split; [reflexivity|split; assumption]).
  assert (Efl : fp_flags s' = Z.lor xt fw).
  { (* the flags before *)
    clear - St OKn Hk Hs Ef Hl Hfw.
    assert (X : forall d l s s', steps (first_metas arg) d l s s' -> 
      (seen l (Meta (txt "framework") handle_framework_tag true) = false /\ fp_flags s' = fp_flags s) \/ 
      (exists v f, (exists k, In (k, v) l /\ hits (k, v) (Meta (txt "framework") handle_framework_tag true) = true) /\ text framework v f /\ fp_flags s' = Z.lor (fp_flags s) f)).
    { intros d l s t X. assert (Keep : forall m' v0 s s1, In m' (first_metas arg) -> m' <> Meta (txt "framework") handle_framework_tag true -> mt_handler m' v0 s = (None, s1) -> fp_flags s1 = fp_flags s).
      { intros m' v0 s0 s3 I NE E; destruct (do_nothing_metas arg m' I) as [->|[->|[Eh _]]];
          [apply instance_ok in E as (x & _ & _ & _ & ->); reflexivity|exfalso; apply NE; reflexivity|rewrite Eh in E; injection E as <-; reflexivity]. }
      induction X as [d s|d k0 v0 l s t Rm X IH|d k0 v0 l m s s3 t Rm I Hm Sn E X IH].
      - left. split; reflexivity.
      - destruct IH as [[A B]|(v1 & f & (k1 & A1 & A2) & B & C)].
        + left. split; [|exact B]. cbn [seen existsb]. rewrite (remark_misses _ (names_ok_Q _ OKn) k0 v0 (Meta (txt "framework") handle_framework_tag true) (or_intror (or_introl eq_refl)) Rm). exact A.
        + right. exists v1, f. split; [exists k1; split; [right; exact A1|exact A2]|]. split; assumption.
      - destruct (do_nothing_metas arg m I) as [->|[->|[Eh _]]].
        + pose proof (Keep _ _ _ _ I ltac:(discriminate) E) as K. destruct IH as [[A B]|(v1 & f & (k1 & A1 & A2) & B & C)].
          * left. split; [|congruence]. cbn [seen existsb]. destruct (hits (k0, v0) (Meta (txt "framework") handle_framework_tag true)) eqn:H2; [|exact A].
            exfalso. assert (Y := hits_one _ _ _ Hm H2). vm_compute in Y. discriminate Y.
          * right. exists v1, f. split; [exists k1; split; [right; exact A1|exact A2]|]. split; [exact B|congruence].
        + apply framework_ok in E as (f & Hf & ->). cbn [fp_flags] in IH. destruct IH as [[A B]|(v1 & f1 & (k1 & A1 & A2) & B & C)].
          * right. exists v0, f. split; [exists k0; split; [left; reflexivity|exact Hm]|]. split; assumption.
          * exfalso. destruct (steps_once _ (names_ok_D _ OKn) (names_ok_Q _ OKn) _ _ _ _ X (Meta (txt "framework") handle_framework_tag true) (or_intror (or_introl eq_refl))) as [Y|[Y _]].
            { assert (seen l (Meta (txt "framework") handle_framework_tag true) = true); [|congruence]. apply existsb_exists. exists (k1, v1). split; assumption. }
            { rewrite seen_app in Y. cbn [seen existsb] in Y. rewrite Hm, orb_true_r in Y. discriminate. }
        + assert (K : fp_flags s3 = fp_flags s) by (rewrite Eh in E; injection E as <-; reflexivity).
          destruct IH as [[A B]|(v1 & f & (k1 & A1 & A2) & B & C)].
          * left. split; [|congruence]. cbn [seen existsb]. destruct (hits (k0, v0) (Meta (txt "framework") handle_framework_tag true)) eqn:H2; [|exact A].
            exfalso. pose proof (find_hit _ (names_ok_D _ OKn) _ _ I Hm) as E1. rewrite (find_hit _ (names_ok_D _ OKn) _ _ (or_intror (or_introl eq_refl)) H2) in E1. injection E1 as <-. cbn [mt_handler] in Eh.
            assert (Z1 : handle_framework_tag JNull (First None 0) = do_nothing JNull (First None 0)) by (rewrite Eh; reflexivity). discriminate Z1.
          * right. exists v1, f. split; [exists k1; split; [right; exact A1|exact A2]|]. split; [exact B|congruence]. }
    destruct (X _ _ _ _ St) as [[A _]|(v1 & f & (k1 & A1 & A2) & B & C)].
    - assert (seen (a ++ (k, w) :: b) (Meta (txt "framework") handle_framework_tag true) = true); [|congruence]. apply existsb_exists. exists (k, w). split; [apply in_or_app; right; left; reflexivity|exact Hk].
    - cbn [fp_flags] in C. rewrite C. f_equal. eapply framework_unique; [exact B|]. replace v1 with w; [exact Hfw|]. symmetry. eapply has_in; [exact Hl|exact A1|].
      apply (hits_iff (Meta (txt "framework") handle_framework_tag true) "framework" (k1, v1) eq_refl). exact A2. }
  exists (a ++ (k, w) :: b), fw. split; [reflexivity|]. split; [exists w; split; assumption|].
  destruct FN as [[FN Fn]|(_ & a' & k' & w' & b' & s3 & s4 & E' & Hk' & Hs' & E & En)].
  - cbn [fp_name] in Fn. rewrite Fn in H. destruct arg as [x|]; [|discriminate]. injection H as <- <-. split; [exact Efl|]. split; [apply iname_ok; exact V|].
    right. split; [|reflexivity]. apply (lacks_iff (Meta (txt "instance") (handle_instance_tag (Some x)) false) "instance" _ eq_refl). exact FN.
  - apply instance_ok in E as (x & -> & G & A & ->). cbn [fp_name] in En. rewrite En in H. injection H as <- <-. split; [exact Efl|]. split; [exact G|]. left. split; [|exact A].
    apply (has_iff (Meta (txt "instance") (handle_instance_tag arg) false) "instance" _ (JStr x) eq_refl). exists a', k', b'. split; [exact E'|]. split; assumption.
Qed.
Lemma prepare_bwd arg xt l n fw : only l first_tags -> Forall (once l) first_tags -> mandatory l "instance" (text eq) n -> good_name n -> (forall a, arg = Some a -> a = n) ->
  mandatory l "framework" (text framework) fw -> exists fl, prepare_instance arg xt (JObj l) = inr (n, fl).
Proof.
  intros O On (vi & Hi & (n' & -> & ->)) G A (vf & Hf & F). assert (OKn := first_names arg).
  destruct (steps_run (first_metas arg) OKn first_tags l (First None xt)) as [s' St].
  { intros k Ik. unfold first_tags in Ik. cbn [In] in Ik. destruct Ik as [<-|[<-|Ik]].
    - eexists. split; [left; reflexivity|]. split; [reflexivity|]. intros v Hv s. rewrite (has_unique _ _ _ _ Hv Hi). eexists. apply instance_ok. exists n. split; [reflexivity|]. split; [exact G|]. split; [exact A|reflexivity].
    - eexists. split; [right; left; reflexivity|]. split; [reflexivity|]. intros v Hv s. rewrite (has_unique _ _ _ _ Hv Hf). eexists. apply framework_ok. exists fw. split; [exact F|reflexivity].
    - repeat (destruct Ik as [<-|Ik]; [match goal with |- exists m, _ /\ mt_name m = txt ?k /\ _ => exists (Meta (txt k) do_nothing false) end; split; [unfold first_metas; cbn [app map]; repeat (first [left; reflexivity|right])|]; split; [reflexivity|]; intros v Hv s; eexists; reflexivity|]). destruct Ik. }
  { exact (first_words arg). }
  { exact O. }
  { exact On. }
  assert (M : forall m, In m (first_metas arg) -> mt_mandatory m = true -> seen l m = true).
  { intros m I Mm. destruct (do_nothing_metas arg m I) as [->|[->|[_ Em]]]; [discriminate| |congruence].
    eapply (mandatory_seen _ "framework"); [reflexivity|exists vf; split; [exact Hf|exact F]]. }
  assert (Ho : handle_object (JObj l) (first_metas arg) (First None xt) = (None, s')).
  { apply object_iff; [apply names_ok_D, OKn|apply names_ok_Q, OKn|]. exists l. split; [reflexivity|]. split; assumption. }
  assert (V : forall a, arg = Some a -> iname_validate a = OK) by (intros a E; rewrite (A a E); apply iname_ok; exact G).
  assert (P : exists m fl, prepare_instance arg xt (JObj l) = inr (m, fl)).
  { assert (P : exists r, prepare_instance arg xt (JObj l) = r /\ exists m fl, r = inr (m, fl)); [|destruct P as (r & -> & P); exact P].
    eexists. split; [unfold prepare_instance; instantiate (1 := match handle_object (JObj l) (first_metas arg) (First None xt) with
      | (Some e, _) => inl e | (None, s) => match fp_name s, arg with Some n, _ => inr (n, fp_flags s) | None, Some n => inr (n, fp_flags s) | None, None => inl Bad end end);
      destruct arg as [x|]; [rewrite (V x eq_refl)|]; reflexivity|]. change (handle_object (JObj l) _ (First None xt)) with (handle_object (JObj l) (first_metas arg) (First None xt)).
    pose proof (steps_field _ (names_ok_D _ OKn) (names_ok_Q _ OKn) fp_name (Meta (txt "instance") (handle_instance_tag arg) false) (or_introl eq_refl)) as FN.
    specialize (FN ltac:(intros m' v0 s s1 I NE E; destruct (do_nothing_metas arg m' I) as [->|[->|[Eh _]]];
      [exfalso; apply NE; reflexivity|apply framework_ok in E as (f & _ & ->); reflexivity|rewrite Eh in E; injection E as <-; reflexivity]) _ _ _ _ St).
    destruct FN as [[FN _]|(_ & a' & k' & w' & b' & s3 & s4 & E' & Hk' & Hs' & E & En)].
    - exfalso. apply (lacks_iff (Meta (txt "instance") (handle_instance_tag arg) false) "instance" _ eq_refl) in FN. exact (has_lacks _ _ _ Hi FN).
    - apply instance_ok in E as (x & -> & _ & _ & ->). cbn [fp_name] in En. exists x, (fp_flags s'). rewrite Ho, En. reflexivity. }
  destruct P as (m & fl & P). exists fl. rewrite P. f_equal. f_equal.
  destruct (prepare_fwd _ _ _ _ _ P) as (l' & fw' & [= <-] & _ & _ & _ & [[Hm _]|[Hl _]]).
  - assert (X := has_unique _ _ _ _ Hm Hi). congruence.
  - exfalso. exact (has_lacks _ _ _ Hi Hl).
Qed.
End First.

(** ** Files *)
Section Whole.
Context (U : uenv).
Notation R := (as_read (u_inet U)).
Notation kern := (u_kernel U).

Lemma lor_type xt fw : xt_ok xt -> fw = 4 \/ fw = 8 -> flags2xt (Z.lor xt fw) = xt /\ flags2xf (Z.lor xt fw) = fw.
Proof. intros [-> | ->] [-> | ->]; split; reflexivity. Qed.
Lemma framework_values v f : text framework v f -> f = 4 \/ f = 8.
Proof. intros (s & _ & [[_ ->]|[_ ->]]); [left|right]; reflexivity. Qed.
Lemma ctrl_begins a fw w : u_ctrl U = true -> 
  sent (snd (send_ctrl_msg U a (Some fw) w)) = sent w /\ fst (send_ctrl_msg U a (Some fw) w) <> None \/
  sent (snd (send_ctrl_msg U a (Some fw) w)) = sent w ++ [begins (a_xt a) (a_name a) fw] /\
  (fst (send_ctrl_msg U a (Some fw) w) = None <-> kern (sent w ++ [begins (a_xt a) (a_name a) fw]) = OK).
Proof.
  intros C. unfold send_ctrl_msg, alloc_msg. destruct (u_mem U (allocs w)); [|left; split; [reflexivity|discriminate]]. rewrite C. right.
  unfold request. cbn [sent fst snd]. change (a_msg a false (Some fw) None None false) with (begins (a_xt a) (a_name a) fw). split; [reflexivity|].
  destruct (kern (sent w ++ [begins (a_xt a) (a_name a) fw])); split; congruence.
Qed.
Lemma ctrl_ends a w : u_ctrl U = true ->
  sent (snd (send_ctrl_msg U a None w)) = sent w /\ fst (send_ctrl_msg U a None w) <> None \/
  sent (snd (send_ctrl_msg U a None w)) = sent w ++ [ends (a_xt a) (a_name a)] /\
  (fst (send_ctrl_msg U a None w) = None <-> kern (sent w ++ [ends (a_xt a) (a_name a)]) = OK).
Proof.
  intros C. unfold send_ctrl_msg, alloc_msg. destruct (u_mem U (allocs w)); [|left; split; [reflexivity|discriminate]]. rewrite C. right.
  unfold request. cbn [sent fst snd]. change (a_msg a false None None None true) with (ends (a_xt a) (a_name a)). split; [reflexivity|].
  destruct (kern (sent w ++ [ends (a_xt a) (a_name a)])); split; congruence.
Qed.

(** What is sent, whether it succeeds or not *)
Definition orderly (xt : Z) (r : fr) (msgs : list (message (E := entry))) : Prop :=
  (r <> None /\ msgs = []) \/
  exists n fw ms fin, msgs = begins xt n fw :: ms ++ fin /\ good_name n /\ (fw = 4 \/ fw = 8) /\ Forall (middle xt n) ms /\ (fin = [] \/ fin = [ends xt n]) /\
    (forall p q, msgs = p ++ q -> p <> [] -> q <> [] -> kern p = OK) /\ (r = None <-> fin = [ends xt n] /\ kern msgs = OK).
Lemma do_parsing_orderly xt force arg v : xt_ok xt -> u_ctrl U = true ->
  orderly xt (fst (do_parsing U xt force arg v (World [] 0))) (sent (snd (do_parsing U xt force arg v (World [] 0)))).
Proof.
  intros X C. unfold do_parsing. destruct (prepare_instance arg xt v) as [e|[n flags]] eqn:P; [left; split; [discriminate|reflexivity]|].
  destruct (prepare_fwd _ _ _ _ _ P) as (l & fw & -> & (w & _ & Hf) & -> & G & _). assert (Hfw := framework_values _ _ Hf). destruct (lor_type xt fw X Hfw) as [-> ->].
  set (a := About xt n force). pose proof (ctrl_begins a fw (World [] 0) C) as B. destruct (send_ctrl_msg U a (Some fw) (World [] 0)) as [r1 w1]. cbn [fst snd] in B.
  destruct B as [[B1 B2]|[B1 B2]].
  { destruct r1 as [e|]; [|exfalso; apply B2; reflexivity]. left. cbn [fst snd]. split; [discriminate|exact B1]. }
  cbn [sent app] in B1. change (sent w1 = [begins xt n fw]) in B1. cbn [sent app] in B2. change (r1 = None <-> kern [begins xt n fw] = OK) in B2.
  right. exists n, fw. destruct r1 as [e|].
  { exists [], []. cbn [fst snd app]. split; [exact B1|]. split; [exact G|]. split; [exact Hfw|]. split; [constructor|]. split; [left; reflexivity|]. rewrite B1. split.
    - intros p q E Np Nq. exfalso. destruct p as [|x p]; [apply Np; reflexivity|]. injection E as _ E. symmetry in E. apply app_eq_nil in E as [_ ->]. apply Nq. reflexivity.
    - split; [discriminate|intros [E _]; discriminate]. }
  assert (K1 := proj1 B2 eq_refl). pose proof (parse_json_progress U a (JObj l) w1) as Pr.
  destruct (parse_json U a (JObj l) w1) as [r2 w2]. cbn [fst snd] in Pr. destruct Pr as (ms & E2 & F2 & A2). rewrite B1 in E2, A2. cbn [app] in E2. change (a_xt a) with xt in F2. change (a_name a) with n in F2.
  (* everything before the last one has been accepted *)
  assert (Acc : forall p q, begins xt n fw :: ms = p ++ q -> p <> [] -> q <> [] \/ r2 = None -> kern p = OK).
  { intros p q E Np Hq. destruct p as [|x p]; [exfalso; apply Np; reflexivity|]. injection E as <- E. destruct p as [|y p]; [exact K1|].
    apply (A2 (y :: p) q); [exact E|discriminate|exact Hq]. }
  destruct r2 as [e|].
  { exists ms, []. cbn [fst snd]. rewrite app_nil_r. split; [exact E2|]. split; [exact G|]. split; [exact Hfw|]. split; [exact F2|]. split; [left; reflexivity|]. split.
    - rewrite E2. intros p q E Np Nq. apply (Acc p q E Np). left. exact Nq.
    - split; [discriminate|intros [E _]; discriminate]. }
  pose proof (ctrl_ends a w2 C) as Cn. destruct (send_ctrl_msg U a None w2) as [r3 w3]. cbn [fst snd] in *. change (a_xt a) with xt in Cn. change (a_name a) with n in Cn.
  destruct Cn as [[C1 C2]|[C1 C2]].
  - exists ms, []. rewrite app_nil_r. split; [rewrite C1; exact E2|]. split; [exact G|]. split; [exact Hfw|]. split; [exact F2|]. split; [left; reflexivity|]. split.
    + rewrite C1, E2. intros p q E Np Nq. apply (Acc p q E Np). left. exact Nq.
    + split; [intros E; exfalso; exact (C2 E)|intros [E _]; discriminate].
  - exists ms, [ends xt n]. rewrite C1, E2. cbn [app]. split; [reflexivity|]. split; [exact G|]. split; [exact Hfw|]. split; [exact F2|]. split; [right; reflexivity|]. split.
    + intros p q E Np Nq. change (begins xt n fw :: ms ++ [ends xt n]) with ((begins xt n fw :: ms) ++ [ends xt n]) in E.
      destruct (app_split _ _ _ _ E) as [(t & E' & Eq)|(t & Ep & Eq & Nt)].
      * apply (Acc p t E' Np). right. reflexivity.
      * exfalso. destruct t as [|x t]; [apply Nt; reflexivity|]. injection Eq as _ Eq. symmetry in Eq. apply app_eq_nil in Eq as [_ ->]. apply Nq. reflexivity.
    + rewrite C2, E2. cbn [app]. split; [intros E; split; [reflexivity|exact E]|intros [_ E]; exact E].
Qed.

Lemma top_words a m : xt_ok (a_xt a) -> In m (top_metas U a) -> exists k, In k (tags R (a_xt a)) /\ mt_name m = txt k.
Proof.
  intros X I. unfold top_metas in I. apply in_app_or in I as [I|I].
  - cbn [In] in I. destruct I as [<-|[<-|[<-|[]]]]; eexists; (split; [|reflexivity]); unfold tags; apply in_or_app; left; cbn [In]; tauto.
  - destruct (list_meta_in U a m X I) as (t & k & P & h & J & En & _). exists t. split; [|exact En]. unfold tags. apply in_or_app. right. apply in_map_iff. exists (t, k, P). split; [reflexivity|exact J].
Qed.
Lemma tags_meta a k : xt_ok (a_xt a) -> In k (tags R (a_xt a)) -> exists m, In m (top_metas U a) /\ mt_name m = txt k.
Proof.
  intros X I. unfold tags in I. apply in_app_or in I as [I|I].
  - cbn [In] in I. unfold top_metas. destruct I as [<-|[<-|[<-|[]]]]; eexists; (split; [apply in_or_app; left|]).
    + left; reflexivity. + reflexivity. + right; left; reflexivity. + reflexivity. + right; right; left; reflexivity. + reflexivity.
  - apply in_map_iff in I as ([[t kd] P] & <- & I). cbn [fst]. destruct (list_meta_of U a t kd P X I) as (m & h & J & En & _). exists m. split; [unfold top_metas; apply in_or_app; right; exact J|exact En].
Qed.

(** Success: the file means something, and that is what was sent. *)
Lemma do_parsing_fwd xt force arg v w : xt_ok xt -> u_ctrl U = true -> do_parsing U xt force arg v (World [] 0) = (None, w) ->
  exists n fw ss ms, file_means R xt arg v n fw ss /\ transmits xt n force ss ms /\ sent w = begins xt n fw :: ms ++ [ends xt n].
Proof.
  intros X C H. unfold do_parsing in H. destruct (prepare_instance arg xt v) as [e|[n flags]] eqn:P; [discriminate|].
  destruct (prepare_fwd _ _ _ _ _ P) as (l & fw & -> & Hf & -> & G & Hi). destruct Hf as (wf & Hwf & Hft). assert (Hfw := framework_values _ _ Hft). destruct (lor_type xt fw X Hfw) as [Ex Ef]. rewrite Ex, Ef in H.
  set (a := About xt n force) in *. pose proof (ctrl_begins a fw (World [] 0) C) as B. destruct (send_ctrl_msg U a (Some fw) (World [] 0)) as [[e|] w1]; [discriminate|]. cbn [fst snd] in B.
  destruct B as [[_ B]|[B _]]; [exfalso; apply B; reflexivity|]. change (sent w1 = [begins xt n fw]) in B.
  destruct (parse_json U a (JObj l) w1) as [[e|] w2] eqn:Pj; [discriminate|]. rewrite parse_json_top in Pj by exact X.
  assert (OKn := top_names U a X). apply object_iff in Pj; [|apply names_ok_D, OKn|apply names_ok_Q, OKn]. destruct Pj as (l' & [= <-] & St & M).
  destruct (top_steps U a X _ _ _ _ St) as (ss & ms & Hs & Ht & Es). change (a_xt a) with xt in *. change (a_name a) with n in *. change (a_force a) with force in *.
  exists n, fw, ss, ms. split; [|split; [exact Ht|]].
  - exists l. split; [reflexivity|]. split.
    { apply Forall_forall. intros k Ik. destruct (tags_meta a k X Ik) as (m & Im & En). eapply seen_once; [exact OKn|exact Im|exact En|exact St]. }
    assert (Hin : exists vi, has l "instance" vi) by (eapply (present (top_metas U a) (Meta (txt "instance") do_nothing true)); [exact OKn|left; reflexivity|reflexivity|exact St|exact M|reflexivity]).
    destruct Hi as [[Hi Ha]|[Hi _]]; [|exfalso; destruct Hin as [vi Hin]; exact (has_lacks _ _ _ Hin Hi)].
    split; [exists (JStr n); split; [exact Hi|exists n; split; reflexivity]|]. split; [exact G|]. split; [exact Ha|]. split; [exists wf; split; assumption|exact Hs].
  - pose proof (ctrl_ends a w2 C) as Cn. rewrite H in Cn. cbn [fst snd] in Cn. destruct Cn as [[_ Cn]|[Cn _]]; [exfalso; apply Cn; reflexivity|].
    rewrite Cn, Es, B. reflexivity.
Qed.

Lemma globals_runs a v gs : generous U -> settings_mean R v gs -> forall w, exists w', handle_globals U a v w = (None, w').
Proof.
  intros (G1 & G2 & G3 & G4 & G5 & G6) H w. unfold handle_globals, alloc_msg. cbn [sent allocs]. rewrite !G5, G1. cbn [negb]. fold (global_metas U).
  rewrite (settings_bwd U v gs G1 G3 H). unfold request. cbn [sent]. rewrite G6. eexists; reflexivity.
Qed.
Lemma sections_member xt l ss k v : sections R xt l ss -> In (k, v) l ->
  (same_word k "comment" \/ same_word k "instance" \/ same_word k "framework") \/ (same_word k "global" /\ exists gs, settings_mean R v gs) \/
  exists t kd P js es, In (t, kd, P) (lists R xt) /\ same_word k t /\ v = JArr js /\ Forall2 P js es.
Proof.
  induction 1 as [|n w l ss C L IH|n w l ss gs W G L IH|n w l ss t kd P js es I W Ev F L IH]; intros J; [destruct J| | |];
    (destruct J as [E|J]; [injection E as -> ->|apply IH; exact J]).
  - left. exact C.
  - right. left. split; [exact W|]. exists gs. exact G.
  - right. right. exists t, kd, P, js, es. repeat (split; [assumption|]). assumption.
Qed.
Lemma lists_first xt t kd P : In (t, kd, P) (lists R xt) -> In t first_tags.
Proof.
  unfold lists, first_tags. destruct (xt =? 1); [|destruct (xt =? 2); [|intros []]]; cbn [In]; intros I; repeat (destruct I as [I|I]); try (exfalso; exact I); injection I as <- <- <-; tauto.
Qed.
Lemma sections_lacks xt l ss k : xt_ok xt -> sections R xt l ss -> In k first_tags -> ~ In k (tags R xt) -> lacks l k.
Proof.
  intros X Hs If Nt. apply Forall_forall. intros [n v] I W. cbn [fst] in W.
  assert (Y : exists t, In t ("comment"%string :: tags R xt) /\ same_word n t).
  { destruct (sections_member _ _ _ _ _ Hs I) as [[C|[C|C]]|[[C _]|(t & kd & P & js & es & J & C & _)]].
    - exists "comment"%string. split; [left; reflexivity|exact C].
    - exists "instance"%string. split; [right; apply in_or_app; left; cbn [In]; tauto|exact C].
    - exists "framework"%string. split; [right; apply in_or_app; left; cbn [In]; tauto|exact C].
    - exists "global"%string. split; [right; apply in_or_app; left; cbn [In]; tauto|exact C].
    - exists t. split; [right; apply in_or_app; right; apply in_map_iff; exists (t, kd, P); split; [reflexivity|exact J]|exact C]. }
  destruct Y as (t & It & Wt). assert (E := same_same _ _ _ W Wt).
  assert (Z1 : k <> t) by (intros ->; destruct It as [It|It]; [subst t; cbn [first_tags In] in If; repeat (destruct If as [If|If]; [discriminate If|]); destruct If|exact (Nt It)]).
  assert (Z2 : In t ("comment"%string :: first_tags)).
  { destruct It as [It|It]; [left; exact It|right]. unfold tags in It. apply in_app_or in It as [It|It].
    - cbn [In] in It. unfold first_tags. cbn [In]. tauto.
    - apply in_map_iff in It as ([[t' kd] P] & <- & It). eapply lists_first. exact It. }
  clear - E Z1 Z2 If. assert (D : NoDup (map (fun k => map lower (txt k)) ("comment"%string :: first_tags))) by (apply nodupb_NoDup; reflexivity).
  apply Z1. eapply NoDup_map_inj; [exact D|right; exact If|exact Z2|exact E].
Qed.
(** A file that means something is accepted. *)
Lemma do_parsing_bwd xt force arg v n fw ss : xt_ok xt -> generous U -> file_means R xt arg v n fw ss ->
  exists w ms, do_parsing U xt force arg v (World [] 0) = (None, w) /\ transmits xt n force ss ms /\ sent w = begins xt n fw :: ms ++ [ends xt n].
Proof.
  intros X G (l & -> & On & Hi & Gn & Ha & Hf & Hs). assert (G' := G). destruct G' as (G1 & G2 & G3 & G4 & G5 & G6).
  assert (Of : only l first_tags).
  { apply Forall_forall. intros [k v] I. cbn [fst]. destruct (sections_member _ _ _ _ _ Hs I) as [[C|[C|C]]|[[C _]|(t & kd & P & js & es & J & C & _)]].
    - left. exact C.
    - right. exists "instance"%string. split; [left; reflexivity|exact C].
    - right. exists "framework"%string. split; [right; left; reflexivity|exact C].
    - right. exists "global"%string. split; [right; right; left; reflexivity|exact C].
    - right. exists t. split; [eapply lists_first; exact J|exact C]. }
  assert (Onf : Forall (once l) first_tags).
  { apply Forall_forall. intros k Ik. destruct (in_dec string_dec k (tags R xt)) as [It|Nt].
    - rewrite Forall_forall in On. apply On. exact It.
    - left. eapply sections_lacks; eassumption. }
  destruct (prepare_bwd arg xt l n fw Of Onf Hi Gn Ha Hf) as [fl P].
  destruct (prepare_fwd _ _ _ _ _ P) as (l' & fw' & [= <-] & Hf' & -> & _ & _).
  assert (fw' = fw) as -> by (destruct Hf as (w1 & A1 & A2), Hf' as (w2 & B1 & B2); rewrite (has_unique _ _ _ _ A1 B1) in A2; eapply framework_unique; eassumption).
  assert (Hfw : fw = 4 \/ fw = 8) by (destruct Hf as (w1 & _ & A2); eapply framework_values; exact A2). destruct (lor_type xt fw X Hfw) as [Ex Ef].
  assert (Run : exists w, do_parsing U xt force arg (JObj l) (World [] 0) = (None, w)).
  { unfold do_parsing. rewrite P, Ex, Ef. set (a := About xt n force). unfold send_ctrl_msg at 1, alloc_msg. cbn [allocs sent]. rewrite G5, G4. unfold request at 1. rewrite G6.
    set (w1 := World _ _). 
    assert (Pj : exists w2, parse_json U a (JObj l) w1 = (None, w2)).
    { rewrite parse_json_top by exact X. assert (OKn := top_names U a X). cut (exists w2, steps (top_metas U a) [] l w1 w2).
      - intros [w2 St]. exists w2. apply object_iff; [apply names_ok_D, OKn|apply names_ok_Q, OKn|]. exists l. split; [reflexivity|]. split; [exact St|].
        intros m I Mm. unfold top_metas in I. cbn [app In] in I. destruct I as [<-|[<-|[<-|I]]].
        + eapply (mandatory_seen _ "instance"); [reflexivity|exact Hi].
        + eapply (mandatory_seen _ "framework"); [reflexivity|exact Hf].
        + discriminate.
        + destruct (list_meta_in U a m X I) as (t & k & P0 & h & _ & _ & _ & Em & _). congruence.
      - apply (steps_exist (top_metas U a) (names_ok_Q _ OKn) (fun _ => True)); [exact Logic.I| |].
        + intros k v I. destruct (sections_member _ _ _ _ _ Hs I) as [[C|[C|C]]|[[C [gs Gs]]|(t & kd & P0 & js & es & J & C & -> & F)]].
          * left. apply case_iff. exact C.
          * right. exists (Meta (txt "instance") do_nothing true). split; [left; reflexivity|]. split; [apply case_iff; exact C|]. intros s _. exists s. split; [reflexivity|exact Logic.I].
          * right. exists (Meta (txt "framework") do_nothing true). split; [right; left; reflexivity|]. split; [apply case_iff; exact C|]. intros s _. exists s. split; [reflexivity|exact Logic.I].
          * right. exists (Meta (txt "global") (handle_globals U a) false). split; [right; right; left; reflexivity|]. split; [apply case_iff; exact C|]. intros s _.
            destruct (globals_runs a v gs G Gs s) as [s1 E]. exists s1. split; [exact E|exact Logic.I].
          * right. destruct (list_meta_of U a t kd P0 X J) as (m & h & Im & En & Eh & Hh). exists m. split; [unfold top_metas; apply in_or_app; right; exact Im|].
            split; [apply (hits_iff m t (k, JArr js) En); exact C|]. intros s _. rewrite Eh. unfold handle_array.
            destruct (array_runs U a kd h G js es) with (cur := @None (list entry)) (w := s) as [s1 E]; [clear - F Hh; induction F as [|v0 x0 js es A F IH]; constructor; [apply Hh; exact A|exact IH]|].
            exists s1. split; [exact E|exact Logic.I].
        + intros m I. destruct (top_words a m X I) as (k & Ik & En). rewrite Forall_forall in On. eapply once_seen; [exact En|apply On; exact Ik]. }
    destruct Pj as [w2 ->]. unfold send_ctrl_msg, alloc_msg. rewrite G5, G4. unfold request. rewrite G6. eexists; reflexivity. }
  destruct Run as [w Run]. destruct (do_parsing_fwd xt force arg (JObj l) w X G4 Run) as (n' & fw' & ss' & ms & (l' & [= <-] & _ & Hi' & _ & _ & Hf2 & Hs') & Ht & Es).
  rewrite (sections_unique U xt _ _ _ Hs Hs').
  assert (n' = n) as -> by (destruct Hi as (w1 & A1 & (? & -> & ->)), Hi' as (w2 & B1 & (? & -> & ->)); assert (Z := has_unique _ _ _ _ A1 B1); congruence).
  assert (fw' = fw) as -> by (destruct Hf as (w1 & A1 & A2), Hf2 as (w2 & B1 & B2); rewrite (has_unique _ _ _ _ A1 B1) in A2; eapply framework_unique; eassumption).
  exists w, ms. split; [exact Run|]. split; assumption.
Qed.
End Whole.
