(** Proofs about configuration files: settings and sections. *)
Require Import Verif.Base Verif.Addr_Model Verif.Glob_Model Verif.Inst_Model Verif.Str_Model Verif.Json_Model Verif.File_Model Verif.File_Spec Verif.File_Objects.
Require Import String Ascii.
Local Open Scope Z_scope.
Local Open Scope list_scope.

(** ** Settings *)
Definition sort_of (t : gtype) : sort :=
  match t with GBool => Flag | GU8 => Small | GU32 => Number | GTimeout => Time | GPlateaus => Sizes | GPrefix6 => Network6 | GPrefix4 => Network4 | GHairpin => Hairpin end.
Lemma settings_catalogue id n t : In (id, n, t) settings -> exists k, n = txt k /\ In (k, id, sort_of t) catalogue.
Proof.
  intros I. assert (X : Forall (fun x => exists k, snd (fst x) = txt k /\ In (k, fst (fst x), sort_of (snd x)) catalogue) settings).
  { unfold settings. repeat (constructor; [cbn [fst snd]; match goal with |- exists k, txt ?s = txt k /\ _ => exists s end; (split; [reflexivity|]); unfold catalogue; repeat (first [left; reflexivity|right])|]). constructor. }
  rewrite Forall_forall in X. exact (X _ I).
Qed.
Lemma catalogue_settings k id t : In (k, id, t) catalogue -> exists t', In (id, txt k, t') settings /\ t = sort_of t'.
Proof.
  intros I. assert (X : Forall (fun c => exists t', In (snd (fst c), txt (fst (fst c)), t') settings /\ snd c = sort_of t') catalogue).
  { unfold catalogue. repeat (constructor; [cbn [fst snd]; match goal with |- context [?s = sort_of _] => let u := match s with Flag => GBool | Small => GU8 | Number => GU32 | Time => GTimeout | Sizes => GPlateaus | Network6 => GPrefix6 | Network4 => GPrefix4 | Hairpin => GHairpin end in exists u end; (split; [|reflexivity]); unfold settings; repeat (first [left; reflexivity|right])|]). constructor. }
  rewrite Forall_forall in X. exact (X _ I).
Qed.
Definition words : list string := map (fun c => fst (fst c)) catalogue.
Lemma words_distinct : NoDup (map (fun k => map lower (txt k)) words).
Proof. apply nodupb_NoDup. vm_compute. reflexivity. Qed.
Lemma same_same n k k' : same_word n k -> same_word n k' -> map lower (txt k) = map lower (txt k').
Proof. rewrite <- !case_iff, !case_eq_iff. congruence. Qed.
Lemma NoDup_map_inj {A B} (f : A -> B) l x y : NoDup (map f l) -> In x l -> In y l -> f x = f y -> x = y.
Proof.
  induction l as [|z l IH]; intros D I J E; [destruct I|]. cbn [map] in D. inversion D as [|? ? NI D']; subst. destruct I as [->|I], J as [->|J].
  - reflexivity.
  - exfalso. apply NI. rewrite E. apply in_map. exact J.
  - exfalso. apply NI. rewrite <- E. apply in_map. exact I.
  - apply IH; assumption.
Qed.
Lemma catalogue_one n c c' : In c catalogue -> In c' catalogue -> same_word n (fst (fst c)) -> same_word n (fst (fst c')) -> c = c'.
Proof.
  intros I J A B. assert (D := words_distinct). unfold words in D. rewrite map_map in D.
  eapply NoDup_map_inj; [exact D|exact I|exact J|]. cbv beta. eapply same_same; eassumption.
Qed.

Section Settings.
Context (U : uenv).
Notation N := (u_inet U).
Notation R := (as_read N).
Lemma all_uint_iff : forall l us, all_uint l 65535 = Some us <-> Forall2 (between 0 65535 is_part) l us.
Proof.
  induction l as [|v l IH]; intros us; cbn [all_uint].
  - split; [intros [= <-]; constructor|]. intros H. inversion H. reflexivity.
  - split.
    + destruct (validate_uint v 0 65535) as [u|] eqn:E; [|discriminate]. destruct (all_uint l 65535) as [r|] eqn:F; [|discriminate]. intros [= <-].
      constructor; [apply validate_iff; [lia|exact E]|apply IH; reflexivity].
    + intros H. inversion H as [|? u ? r A B]; subst. apply validate_iff in A; [|lia]. apply IH in B. rewrite A, B. reflexivity.
Qed.
Lemma validate_max v b u : validate_uint v 0 b = Some u <-> between 0 b (r_number R) v u.
Proof. apply validate_iff. lia. Qed.
Lemma json2nl_iff t v g : json2nl U t v = Some g <-> value_means R (sort_of t) v g.
Proof.
  destruct t; unfold json2nl, value_means, sort_of.
  - destruct v; split; try discriminate; try (intros [[? _]|[? _]]; discriminate).
    + intros [= <-]. right. split; reflexivity.
    + intros [[? _]|[_ ->]]; [discriminate|reflexivity].
    + intros [= <-]. left. split; reflexivity.
    + intros [[_ ->]|[? _]]; [reflexivity|discriminate].
  - split.
    + destruct (validate_uint v 0 255) as [u|] eqn:E; [|discriminate]. intros [= <-]. exists u. split; [apply validate_max; exact E|reflexivity].
    + intros (u & H & ->). apply validate_max in H. rewrite H. reflexivity.
  - unfold MAX_U32. split.
    + destruct (validate_uint v 0 (2 ^ 32 - 1)) as [u|] eqn:E; [|discriminate]. intros [= <-]. exists u. split; [apply validate_max; exact E|reflexivity].
    + intros (u & H & ->). apply validate_max in H. rewrite H. reflexivity.
  - split.
    + destruct v; try discriminate; unfold str2nl. destruct (str_to_timeout s) as [n|] eqn:E; [|discriminate]. intros [= <-].
      exists n. split; [exists s; split; [reflexivity|exact E]|reflexivity].
    + intros (n & (s & -> & H) & ->). unfold str2nl. cbn in H. rewrite H. reflexivity.
  - split.
    + destruct v; try discriminate. destruct (all_uint l 65535) as [us|] eqn:E; [|discriminate]. intros [= <-]. exists l, us. split; [reflexivity|]. split; [apply all_uint_iff; exact E|reflexivity].
    + intros (l & us & -> & H & ->). apply all_uint_iff in H. rewrite H. reflexivity.
  - split.
    + destruct v; try discriminate; unfold str2nl, str2nl_prefix6.
      * change (str_eqb (txt "null") s_null) with true. cbv iota. intros [= <-]. left. split; [left; reflexivity|reflexivity].
      * destruct (str_eqb s s_null) eqn:E.
        { apply str_eqb_iff in E. subst s. intros [= <-]. left. split; [right; reflexivity|reflexivity]. }
        destruct (str_to_prefix6 N s) as [p|] eqn:P; [|discriminate]. intros [= <-]. right. exists p. split; [exists s; split; [reflexivity|exact P]|]. split; [|reflexivity].
        intros [= ->]. discriminate E.
    + intros [[[-> | ->] ->]|(p & (s & -> & P) & NE & ->)]; [reflexivity|reflexivity|]. unfold str2nl, str2nl_prefix6.
      destruct (str_eqb s s_null) eqn:E; [exfalso; apply NE; apply str_eqb_iff in E; subst s; reflexivity|]. cbn in P. rewrite P. reflexivity.
  - split.
    + destruct v; try discriminate; unfold str2nl, str2nl_prefix4.
      * change (str_eqb (txt "null") s_null) with true. cbv iota. intros [= <-]. left. split; [left; reflexivity|reflexivity].
      * destruct (str_eqb s s_null) eqn:E.
        { apply str_eqb_iff in E. subst s. intros [= <-]. left. split; [right; reflexivity|reflexivity]. }
        destruct (str_to_prefix4 N s) as [p|] eqn:P; [|discriminate]. intros [= <-]. right. exists p. split; [exists s; split; [reflexivity|exact P]|]. split; [|reflexivity].
        intros [= ->]. discriminate E.
    + intros [[[-> | ->] ->]|(p & (s & -> & P) & NE & ->)]; [reflexivity|reflexivity|]. unfold str2nl, str2nl_prefix4.
      destruct (str_eqb s s_null) eqn:E; [exfalso; apply NE; apply str_eqb_iff in E; subst s; reflexivity|]. cbn in P. rewrite P. reflexivity.
  - split.
    + destruct v; try discriminate; unfold str2nl, str2nl_hairpin_mode.
      destruct (str_eqb s s_off) eqn:E0; [apply str_eqb_iff in E0; subst s; intros [= <-]; left; split; reflexivity|].
      destruct (str_eqb s s_simple) eqn:E1; [apply str_eqb_iff in E1; subst s; intros [= <-]; right; left; split; reflexivity|].
      destruct (str_eqb s s_intrinsic) eqn:E2; [apply str_eqb_iff in E2; subst s; intros [= <-]; right; right; split; reflexivity|discriminate].
    + intros [[-> ->]|[[-> ->]|[-> ->]]]; reflexivity.
Qed.

Definition global_metas : list (meta (list (Z * gval))) := map (fun x => let '(id, n, t) := x in Meta n (write_global U id t) false) settings.
Lemma global_names : names_ok (map mt_name global_metas) = true.
Proof. vm_compute. reflexivity. Qed.
Lemma global_meta_in m : In m global_metas -> exists k id t, In (k, id, sort_of t) catalogue /\ mt_name m = txt k /\ mt_handler m = write_global U id t.
Proof.
  unfold global_metas. intros I. apply in_map_iff in I as ([[id n] t] & <- & I). destruct (settings_catalogue _ _ _ I) as (k & -> & J).
  exists k, id, t. split; [exact J|]. split; reflexivity.
Qed.
Lemma global_meta_of k id t : In (k, id, t) catalogue -> exists m t', In m global_metas /\ t = sort_of t' /\ mt_name m = txt k /\ mt_handler m = write_global U id t'.
Proof.
  intros I. destruct (catalogue_settings _ _ _ I) as (t' & J & ->). exists (Meta (txt k) (write_global U id t') false), t'.
  split; [|split; [reflexivity|split; reflexivity]]. unfold global_metas. apply in_map_iff. exists (id, txt k, t'). split; [reflexivity|exact J].
Qed.
Lemma write_global_ok id t v gs gs' : write_global U id t v gs = (None, gs') ->
  (exists g, value_means R (sort_of t) v g /\ g <> VPlateaus [] /\ gs' = gs ++ [(id, g)]) \/ (sort_of t = Sizes /\ v = JArr [] /\ gs' = gs).
Proof.
  unfold write_global. destruct (json2nl U t v) as [g|] eqn:E; [|discriminate]. apply json2nl_iff in E.
  assert (X : g <> VPlateaus [] -> (if u_setting U gs (id, g) then (None, gs ++ [(id, g)]) else (Some NoRoom, gs)) = (None, gs') ->
    (exists g, value_means R (sort_of t) v g /\ g <> VPlateaus [] /\ gs' = gs ++ [(id, g)]) \/ (sort_of t = Sizes /\ v = JArr [] /\ gs' = gs)).
  { intros NE H. destruct (u_setting U gs (id, g)); [|discriminate]. injection H as <-. left. exists g. split; [exact E|]. split; [exact NE|reflexivity]. }
  destruct g as [?|?|[|x us]|? ?|? ?]; try (apply X; discriminate).
  intros H. right. destruct (sort_of t) eqn:St; unfold value_means in E; try (exfalso;
    repeat match goal with E : _ \/ _ |- _ => destruct E as [E|E] | E : exists _, _ |- _ => destruct E as [? E] | E : _ /\ _ |- _ => destruct E as [? E] end; discriminate).
  destruct E as (l & us & -> & F & [= <-]). inversion F; subst. destruct (u_nest U); [|discriminate]. injection H as <-. repeat split; reflexivity.
Qed.
Lemma global_steps : forall d l gs gs', steps global_metas d l gs gs' -> exists gs1, gs' = gs ++ gs1 /\ settings_list R l gs1.
Proof.
  induction 1 as [d s|d k v l s s' Rm H IH|d k v l m s s1 s' Rm I Hm Sn E H IH].
  - exists []. split; [symmetry; apply app_nil_r|constructor].
  - destruct IH as (gs1 & -> & L). exists gs1. split; [reflexivity|]. apply sl_comment; [apply case_iff; exact Rm|exact L].
  - destruct IH as (gs1 & -> & L). destruct (global_meta_in m I) as (w & id & t & J & En & Eh). rewrite Eh in E.
    assert (W : same_word k w) by (apply (hits_iff m w (k, v) En); exact Hm).
    destruct (write_global_ok _ _ _ _ _ E) as [(g & Vg & NE & ->)|(St & -> & ->)].
    + exists ((id, g) :: gs1). split; [rewrite <- app_assoc; reflexivity|]. eapply sl_value; [exact J|exact W|exact Vg|exact NE|exact L].
    + exists gs1. split; [reflexivity|]. eapply sl_empty; [rewrite <- St; exact J|exact W|reflexivity|exact L].
Qed.
Lemma settings_fwd v gs : handle_object v global_metas [] = (None, gs) -> settings_mean R v gs.
Proof.
  intros H. apply object_iff in H; [|apply names_ok_D, global_names|apply names_ok_Q, global_names]. destruct H as (l & -> & St & _).
  destruct (global_steps _ _ _ _ St) as (gs1 & -> & L). exists l. split; [reflexivity|]. split; [exact L|].
  apply Forall_forall. intros [[k id] t] I. cbn [fst]. destruct (global_meta_of k id t I) as (m & t' & Im & _ & En & _). eapply seen_once; [apply global_names|exact Im|exact En|exact St].
Qed.
Lemma value_unique t v g g' : value_means R t v g -> value_means R t v g' -> g = g'.
Proof.
  assert (X : exists t', t = sort_of t') by (destruct t; [exists GBool|exists GU8|exists GU32|exists GTimeout|exists GPlateaus|exists GPrefix6|exists GPrefix4|exists GHairpin]; reflexivity).
  destruct X as [t' ->]. rewrite <- !json2nl_iff. congruence.
Qed.
Lemma not_comment c n : In c catalogue -> same_word n (fst (fst c)) -> ~ same_word n "comment".
Proof.
  intros I A B. assert (Q := names_ok_Q _ global_names). destruct c as [[k id] t]. cbn [fst] in A. destruct (global_meta_of k id t I) as (m & t' & Im & _ & En & _).
  rewrite Forall_forall in Q. apply (Q m Im). unfold low. rewrite En. eapply same_same; eassumption.
Qed.
Lemma settings_unique : forall l gs gs', settings_list R l gs -> settings_list R l gs' -> gs = gs'.
Proof.
  induction l as [|p l IH]; intros gs gs' H H'; [inversion H; inversion H'; reflexivity|].
  inversion H as [|? ? ? ? C L|? ? ? ? k id I W Ev L|? ? ? ? k id t g I W Vg NE L]; subst; inversion H' as [|? ? ? ? C' L'|? ? ? ? k' id' I' W' Ev' L'|? ? ? ? k' id' t' g' I' W' Vg' NE' L']; subst;
    try (apply IH; assumption); try (exfalso; eapply not_comment; [| |eassumption]; [eassumption|cbn [fst]; eassumption]);
    try (assert (X := catalogue_one _ _ _ I I' W W'); injection X; clear X; intros; subst).
  - exfalso. destruct Vg' as (l1 & us & [= <-] & F & ->). inversion F; subst. apply NE'. reflexivity.
  - exfalso. destruct Vg as (l1 & us & [= <-] & F & ->). inversion F; subst. apply NE. reflexivity.
  - f_equal; [f_equal; eapply value_unique; eassumption|apply IH; assumption].
Qed.
Lemma settings_bwd v gs : u_nest U = true -> (forall g x, u_setting U g x = true) -> settings_mean R v gs -> handle_object v global_metas [] = (None, gs).
Proof.
  intros Hn Hs (l & -> & L & On).
  assert (X : exists gs', steps global_metas [] l [] gs').
  { apply (steps_exist global_metas (names_ok_Q _ global_names) (fun _ => True)); [exact Logic.I| |].
    - intros k v I. assert (Y : remark k = true \/ exists w id t, In (w, id, t) catalogue /\ same_word k w /\ exists g, value_means R t v g).
      { clear On. induction L as [|n w l gs C L IH|n w l gs k0 id Ik W Ev L IH|n w l gs k0 id t g Ik W Vg NE L IH]; [destruct I| | |];
          (destruct I as [E|I]; [injection E as -> ->|apply IH; exact I]).
        - left. apply case_iff. exact C.
        - right. exists k0, id, Sizes. split; [exact Ik|]. split; [exact W|]. exists (VPlateaus []). subst v. exists [], []. split; [reflexivity|]. split; [constructor|reflexivity].
        - right. exists k0, id, t. split; [exact Ik|]. split; [exact W|]. exists g. exact Vg. }
      destruct Y as [Y|(w & id & t & Ic & W & g & Vg)]; [left; exact Y|right]. destruct (global_meta_of w id t Ic) as (m & t' & Im & -> & En & Eh).
      exists m. split; [exact Im|]. split; [apply (hits_iff m w (k, v) En); exact W|]. intros s _. rewrite Eh. unfold write_global. apply json2nl_iff in Vg. rewrite Vg, Hn, Hs.
      destruct g as [?|?|[|x us]|? ?|? ?]; eexists; split; reflexivity.
    - intros m Im. destruct (global_meta_in m Im) as (k & id & t & Ic & En & _). rewrite Forall_forall in On. specialize (On _ Ic). cbn [fst] in On. eapply once_seen; eassumption. }
  destruct X as [gs' St]. destruct (global_steps _ _ _ _ St) as (gs1 & E & L1). cbn [app] in E. subst gs'.
  rewrite (settings_unique _ _ _ L L1). apply object_iff; [apply names_ok_D, global_names|apply names_ok_Q, global_names|].
  exists l. split; [reflexivity|]. split; [exact St|]. intros m Im. destruct (global_meta_in m Im) as (k & id & t & _ & _ & _).
  unfold global_metas in Im. apply in_map_iff in Im as ([[? ?] ?] & <- & _). discriminate.
Qed.
End Settings.

(** ** What happens to the state, also if something fails *)
Section Relation.
Context {S : Type} (P : S -> S -> fr -> Prop).
Context (P_refl : forall s r, P s s r) (P_trans : forall s s1 s2 r, P s s1 None -> P s1 s2 r -> P s s2 r).
Lemma tag_rel key v : forall ms found s, (forall m s, In m ms -> P s (snd (mt_handler m v s)) (fst (mt_handler m v s))) ->
  P s (snd (fst (handle_tag key v ms found s))) (fst (fst (handle_tag key v ms found s))).
Proof.
  induction ms as [|m ms IH]; intros found s H; destruct found as [|f fs]; cbn [handle_tag]; try apply P_refl.
  destruct (case_eqb key (mt_name m)).
  - destruct f; [apply P_refl|]. cbn [fst snd]. apply H. left. reflexivity.
  - specialize (IH fs s (fun m s I => H m s (or_intror I))). destruct (handle_tag key v ms fs s) as [[r s'] fs']. exact IH.
Qed.
Lemma children_rel ms : (forall m v s, In m ms -> P s (snd (mt_handler m v s)) (fst (mt_handler m v s))) -> forall l found s,
  P s (snd (fst (children l ms found s))) (fst (fst (children l ms found s))).
Proof.
  intros H. induction l as [|[k v] l IH]; intros found s; cbn [children]; [apply P_refl|].
  assert (X : P s (snd (fst (handle_child k v ms found s))) (fst (fst (handle_child k v ms found s)))).
  { unfold handle_child. destruct (case_eqb k (txt "comment")); [apply P_refl|]. apply tag_rel. intros m s0 I. apply H. exact I. }
  destruct (handle_child k v ms found s) as [[[e|] s1] f]; cbn [fst snd] in *; [exact X|]. eapply P_trans; [exact X|apply IH].
Qed.
Lemma object_rel ms v s : (forall m v s, In m ms -> P s (snd (mt_handler m v s)) (fst (mt_handler m v s))) ->
  P s (snd (handle_object v ms s)) (fst (handle_object v ms s)).
Proof.
  intros H. unfold handle_object. destruct v; try apply P_refl.
  pose proof (children_rel ms H l (map (fun _ => false) ms) s) as X. destruct (children l ms (map (fun _ => false) ms) s) as [[[e|] s1] f]; cbn [fst snd] in *; [exact X|].
  destruct (missing ms f); cbn [fst snd]; [|exact X]. eapply P_trans; [exact X|apply P_refl].
Qed.
End Relation.

Section Upload.
Context (U : uenv).
Notation R := (as_read (u_inet U)).
Notation kern := (u_kernel U).

Definition middle (xt : Z) (n : name) (m : message (E := entry)) : Prop := m_xt m = xt /\ m_name m = n /\ m_init m = None /\ m_end m = false.
(** What was sent in between, all of it accepted unless, perhaps, the last *)
Definition progress (a : about) (w w' : world) (r : fr) : Prop :=
  exists ms, sent w' = sent w ++ ms /\ Forall (middle (a_xt a) (a_name a)) ms /\
    forall p q, ms = p ++ q -> p <> [] -> q <> [] \/ r = None -> kern (sent w ++ p) = OK.
Lemma progress_same a w w' r : sent w' = sent w -> progress a w w' r.
Proof. intros E. exists []. split; [rewrite app_nil_r; exact E|]. split; [constructor|]. intros p q H Np. symmetry in H. apply app_eq_nil in H as [-> _]. exfalso. apply Np. reflexivity. Qed.
Lemma progress_refl a w r : progress a w w r.
Proof. apply progress_same. reflexivity. Qed.
Lemma app_split {A} : forall (a b c d : list A), a ++ b = c ++ d -> (exists l, a = c ++ l /\ d = l ++ b) \/ (exists l, c = a ++ l /\ b = l ++ d /\ l <> []).
Proof.
  induction a as [|x a IH]; intros b c d H; destruct c as [|y c].
  - left. exists []. split; [reflexivity|symmetry; exact H].
  - right. exists (y :: c). split; [reflexivity|]. split; [exact H|discriminate].
  - left. exists (x :: a). split; [reflexivity|symmetry; exact H].
  - cbn [app] in H. injection H as <- H. destruct (IH _ _ _ H) as [(l & -> & ->)|(l & -> & -> & NE)].
    + left. exists l. split; reflexivity.
    + right. exists l. split; [reflexivity|]. split; [reflexivity|exact NE].
Qed.
Lemma progress_trans a w w1 w2 r : progress a w w1 None -> progress a w1 w2 r -> progress a w w2 r.
Proof.
  intros (m1 & E1 & F1 & A1) (m2 & E2 & F2 & A2). exists (m1 ++ m2). split; [rewrite E2, E1, app_assoc; reflexivity|].
  split; [apply Forall_app; split; assumption|]. intros p q H Np C. destruct (app_split _ _ _ _ H) as [(l & -> & ->)|(l & -> & -> & Nl)].
  - apply (A1 p l); [reflexivity|exact Np|right; reflexivity].
  - rewrite app_assoc, <- E1. apply (A2 l q); [reflexivity|exact Nl|exact C].
Qed.
Lemma request_progress a m w : middle (a_xt a) (a_name a) m -> progress a w (snd (request U m w)) (fst (request U m w)).
Proof.
  intros M. unfold request. cbn [sent snd fst]. exists [m]. split; [reflexivity|]. split; [constructor; [exact M|constructor]|].
  intros p q H Np C. destruct p as [|x p]; [exfalso; apply Np; reflexivity|]. injection H as <- H. symmetry in H. apply app_eq_nil in H as [-> ->].
  destruct C as [C|C]; [exfalso; apply C; reflexivity|]. destruct (kern (sent w ++ [m])); [reflexivity|discriminate].
Qed.
Lemma entries_middle a k l : middle (a_xt a) (a_name a) (entries_msg a k l).
Proof. repeat split. Qed.

Lemma try_sent h v cur w : sent (snd (try_entry U h v cur w)) = sent w.
Proof.
  unfold try_entry. destruct cur as [l|].
  - destruct (h v) as [e|x]; [reflexivity|]. destruct (u_entry U l x); [reflexivity|]. destruct l; reflexivity.
  - unfold alloc_msg. destruct (u_mem U (allocs w)); [|reflexivity]. destruct (u_nest U); [|reflexivity].
    destruct (h v) as [e|x]; [reflexivity|]. destruct (u_entry U [] x); reflexivity.
Qed.
Lemma array_progress a k h : forall js cur w, progress a w (snd (array_loop U a k h js cur w)) (fst (array_loop U a k h js cur w)).
Proof.
  induction js as [|v js IH]; intros cur w; cbn [array_loop].
  - destruct cur as [[|x xs]|]; try apply progress_refl. apply request_progress, entries_middle.
  - pose proof (try_sent h v cur w) as E. destruct (try_entry U h v cur w) as [[c|c|e] w1]; cbn [snd] in E.
    + eapply progress_trans; [apply progress_same; exact E|apply IH].
    + pose proof (request_progress a (entries_msg a k c) w1 (entries_middle a k c)) as Pr. destruct (request U (entries_msg a k c) w1) as [[e|] w2]; cbn [fst snd] in Pr.
      * eapply progress_trans; [apply progress_same; exact E|exact Pr].
      * pose proof (try_sent h v None w2) as E2. destruct (try_entry U h v None w2) as [[c2|c2|e2] w3]; cbn [snd] in E2.
        { eapply progress_trans; [apply progress_same; exact E|]. eapply progress_trans; [exact Pr|]. eapply progress_trans; [apply progress_same; exact E2|apply IH]. }
        { cbn [fst snd]. eapply progress_trans; [apply progress_same; exact E|]. eapply progress_trans; [exact Pr|]. apply progress_same; exact E2. }
        { cbn [fst snd]. eapply progress_trans; [apply progress_same; exact E|]. eapply progress_trans; [exact Pr|]. apply progress_same; exact E2. }
    + cbn [fst snd]. apply progress_same. exact E.
Qed.
Lemma handle_array_progress a k h v w : progress a w (snd (handle_array U a k h v w)) (fst (handle_array U a k h v w)).
Proof. unfold handle_array. destruct v; try apply progress_refl. apply array_progress. Qed.
Lemma globals_progress a v w : progress a w (snd (handle_globals U a v w)) (fst (handle_globals U a v w)).
Proof.
  unfold handle_globals, alloc_msg. cbn [sent allocs]. destruct (u_mem U (allocs w)); [|apply progress_same; reflexivity].
  destruct (u_nest U); cbn [negb]; [|apply progress_same; reflexivity]. destruct (u_mem U (S (allocs w))); [|apply progress_same; reflexivity].
  destruct (handle_object v _ []) as [[e|] gs]; [apply progress_same; reflexivity|].
  eapply progress_trans; [|apply request_progress; repeat split]. apply progress_same. reflexivity.
Qed.
Lemma parse_json_progress a v w : progress a w (snd (parse_json U a v w)) (fst (parse_json U a v w)).
Proof.
  unfold parse_json. destruct (a_xt a =? XT_SIIT); [|destruct (a_xt a =? XT_NAT64); [|apply progress_refl]];
    (apply (object_rel (progress a)); [intros; apply progress_refl|intros s s1 s2 r; apply progress_trans|]); intros m v0 s I; cbn [In app] in I;
    repeat (destruct I as [<-|I]); try (exfalso; exact I); cbn [mt_handler];
    first [apply progress_refl|apply globals_progress|apply handle_array_progress].
Qed.

(** ** Sections *)
Lemma try_put h v cur w c w' : try_entry U h v cur w = (TPut c, w') -> exists x, h v = inr x /\ c = (match cur with Some l => l | None => [] end) ++ [x].
Proof.
  unfold try_entry. destruct cur as [l|].
  - destruct (h v) as [e|x]; [discriminate|]. destruct (u_entry U l x); [|destruct l; discriminate]. intros [= <- _]. exists x. split; reflexivity.
  - unfold alloc_msg. destruct (u_mem U (allocs w)); [|discriminate]. destruct (u_nest U); [|discriminate].
    destruct (h v) as [e|x]; [discriminate|]. destruct (u_entry U [] x); [|discriminate]. intros [= <- _]. exists x. split; reflexivity.
Qed.
Lemma try_full h v cur w c w' : try_entry U h v cur w = (TFull c, w') -> cur = Some c /\ c <> [].
Proof.
  unfold try_entry. destruct cur as [l|].
  - destruct (h v) as [e|x]; [discriminate|]. destruct (u_entry U l x); [discriminate|]. destruct l; [discriminate|]. intros [= <- _]. split; [reflexivity|discriminate].
  - unfold alloc_msg. destruct (u_mem U (allocs w)); [|discriminate]. destruct (u_nest U); [|discriminate].
    destruct (h v) as [e|x]; [discriminate|]. destruct (u_entry U [] x); discriminate.
Qed.
Lemma request_sent m w : sent (snd (request U m w)) = sent w ++ [m].
Proof. reflexivity. Qed.
Lemma array_ok a k h : forall js cur w w', array_loop U a k h js cur w = (None, w') ->
  exists es chunks, Forall2 (fun v x => h v = inr x) js es /\ List.concat chunks = (match cur with Some c => c | None => [] end) ++ es /\ Forall (fun c => c <> []) chunks /\
    sent w' = sent w ++ map (entries_msg a k) chunks.
Proof.
  induction js as [|v js IH]; intros cur w w' H; cbn [array_loop] in H.
  - destruct cur as [[|x xs]|].
    + injection H as <-. exists [], []. split; [constructor|]. split; [reflexivity|]. split; [constructor|]. symmetry. apply app_nil_r.
    + pose proof (request_sent (entries_msg a k (x :: xs)) w) as E. rewrite H in E. exists [], [x :: xs]. split; [constructor|]. split; [reflexivity|].
      split; [constructor; [discriminate|constructor]|]. exact E.
    + injection H as <-. exists [], []. split; [constructor|]. split; [reflexivity|]. split; [constructor|]. symmetry. apply app_nil_r.
  - pose proof (try_sent h v cur w) as E. destruct (try_entry U h v cur w) as [[c|c|e] w1] eqn:T; cbn [snd] in E; [| |discriminate].
    + destruct (try_put _ _ _ _ _ _ T) as (x & Hx & ->). destruct (IH _ _ _ H) as (es & chunks & F & C & Ne & S1).
      exists (x :: es), chunks. split; [constructor; assumption|]. split; [rewrite C, <- app_assoc; reflexivity|]. split; [exact Ne|]. rewrite S1, E. reflexivity.
    + destruct (try_full _ _ _ _ _ _ T) as [-> Nc]. pose proof (request_sent (entries_msg a k c) w1) as E1. destruct (request U (entries_msg a k c) w1) as [[e|] w2]; [discriminate|].
      cbn [snd] in E1. pose proof (try_sent h v None w2) as E2. destruct (try_entry U h v None w2) as [[c2|c2|e2] w3] eqn:T2; cbn [snd] in E2; try discriminate.
      destruct (try_put _ _ _ _ _ _ T2) as (x & Hx & ->). destruct (IH _ _ _ H) as (es & chunks & F & C & Ne & S1).
      exists (x :: es), (c :: chunks). split; [constructor; assumption|]. split; [cbn [List.concat]; rewrite C; reflexivity|]. split; [constructor; assumption|].
      rewrite S1, E2, E1, E, <- app_assoc. reflexivity.
Qed.
(** Nothing runs out, and the kernel accepts. *)
Definition generous : Prop := u_nest U = true /\ (forall x, u_entry U [] x = true) /\ (forall l x, u_setting U l x = true) /\ u_ctrl U = true /\
  (forall k, u_mem U k = true) /\ (forall ms, kern ms = OK).
Lemma array_runs a k h : generous -> forall js es, Forall2 (fun v x => h v = inr x) js es -> forall cur w, exists w', array_loop U a k h js cur w = (None, w').
Proof.
  intros (G1 & G2 & G3 & G4 & G5 & G6). induction 1 as [|v x js es Hx F IH]; intros cur w; cbn [array_loop].
  - destruct cur as [[|x xs]|]; try (eexists; reflexivity). unfold request. cbn [sent]. rewrite G6. eexists; reflexivity.
  - assert (T0 : forall w, exists w1, try_entry U h v None w = (TPut [x], w1)).
    { intros w0. unfold try_entry, alloc_msg. rewrite G5, G1, Hx, G2. eexists. reflexivity. }
    assert (T : exists w1, (exists c, try_entry U h v cur w = (TPut c, w1)) \/ (exists c, try_entry U h v cur w = (TFull c, w1))).
    { destruct cur as [l|]; [|destruct (T0 w) as [w1 ->]; exists w1; left; eexists; reflexivity].
      unfold try_entry. rewrite Hx. destruct (u_entry U l x) eqn:Eu; [eexists; left; eexists; reflexivity|]. destruct l as [|y l]; [rewrite G2 in Eu; discriminate|]. eexists; right; eexists; reflexivity. }
    destruct T as (w1 & [(c & ->)|(c & ->)]); [apply IH|]. unfold request. cbn [sent]. rewrite G6. match goal with |- context [try_entry U h v None ?w2] => destruct (T0 w2) as [w3 ->] end. apply IH.
Qed.

Definition xt_ok (xt : Z) : Prop := xt = 1 \/ xt = 2.
Definition list_metas (a : about) : list (meta world) :=
  if a_xt a =? XT_SIIT then
      [Meta (txt "eamt") (handle_array U a Eamt (handle_eam_entry U)) false;
       Meta (txt "blacklist4") (handle_array U a Denylist4 (handle_denylist_entry U)) false;
       Meta (txt "denylist4") (handle_array U a Denylist4 (handle_denylist_entry U)) false]
  else
      [Meta (txt "pool4") (handle_array U a Pool4 (handle_pool4_entry U)) false;
       Meta (txt "bib") (handle_array U a Bib (handle_bib_entry U)) false].
Definition top_metas (a : about) : list (meta world) :=
  [Meta (txt "instance") do_nothing true; Meta (txt "framework") do_nothing true; Meta (txt "global") (handle_globals U a) false] ++ list_metas a.
Lemma parse_json_top a v w : xt_ok (a_xt a) -> parse_json U a v w = handle_object v (top_metas a) w.
Proof. unfold parse_json, top_metas, list_metas. intros [-> | ->]; reflexivity. Qed.
Lemma top_names a : xt_ok (a_xt a) -> names_ok (map mt_name (top_metas a)) = true.
Proof. unfold top_metas, list_metas. intros [-> | ->]; reflexivity. Qed.
(** What a list's tag is *)
Lemma list_meta_in a m : xt_ok (a_xt a) -> In m (list_metas a) -> exists t k P h, In (t, k, P) (lists R (a_xt a)) /\ mt_name m = txt t /\ mt_handler m = handle_array U a k h /\
  mt_mandatory m = false /\ (forall v x, h v = inr x <-> P v x) /\ (forall l, entries_msg a k l = carries (a_xt a) (a_name a) (a_force a) k l).
Proof.
  unfold list_metas, lists. intros X I. destruct X as [E|E]; rewrite E in *.
  - change (1 =? XT_SIIT) with true in I. change (1 =? 1) with true. cbn [In] in I. destruct I as [<-|[<-|[<-|[]]]].
    + exists "eamt"%string, Eamt, (eam_means R), (handle_eam_entry U). split; [left; reflexivity|]. split; [reflexivity|]. split; [reflexivity|]. split; [reflexivity|]. split; [apply eam_iff|]. intros l. unfold entries_msg, a_msg, carries. rewrite E. reflexivity.
    + exists "blacklist4"%string, Denylist4, (deny_means R), (handle_denylist_entry U). split; [right; left; reflexivity|]. split; [reflexivity|]. split; [reflexivity|]. split; [reflexivity|]. split; [apply deny_iff|]. intros l. unfold entries_msg, a_msg, carries. rewrite E. reflexivity.
    + exists "denylist4"%string, Denylist4, (deny_means R), (handle_denylist_entry U). split; [right; right; left; reflexivity|]. split; [reflexivity|]. split; [reflexivity|]. split; [reflexivity|]. split; [apply deny_iff|]. intros l. unfold entries_msg, a_msg, carries. rewrite E. reflexivity.
  - change (2 =? XT_SIIT) with false in I. change (2 =? 1) with false. change (2 =? 2) with true. cbn [In] in I. destruct I as [<-|[<-|[]]].
    + exists "pool4"%string, Pool4, (pool4_means R), (handle_pool4_entry U). split; [left; reflexivity|]. split; [reflexivity|]. split; [reflexivity|]. split; [reflexivity|]. split; [apply pool4_iff|]. intros l. unfold entries_msg, a_msg, carries. rewrite E. reflexivity.
    + exists "bib"%string, Bib, (bib_means R), (handle_bib_entry U). split; [right; left; reflexivity|]. split; [reflexivity|]. split; [reflexivity|]. split; [reflexivity|]. split; [apply bib_iff|]. intros l. unfold entries_msg, a_msg, carries. rewrite E. reflexivity.
Qed.
Lemma list_meta_of a t k P : xt_ok (a_xt a) -> In (t, k, P) (lists R (a_xt a)) -> exists m h, In m (list_metas a) /\ mt_name m = txt t /\ mt_handler m = handle_array U a k h /\ (forall v x, h v = inr x <-> P v x).
Proof.
  unfold list_metas, lists. intros X I. destruct X as [E|E]; rewrite E in *.
  - change (1 =? XT_SIIT) with true. change (1 =? 1) with true in I. cbn [In] in I. destruct I as [I|[I|[I|[]]]]; injection I as <- <- <-.
    + eexists; eexists; split; [left; reflexivity|]. split; [reflexivity|]. split; [reflexivity|apply eam_iff].
    + eexists; eexists; split; [right; left; reflexivity|]. split; [reflexivity|]. split; [reflexivity|apply deny_iff].
    + eexists; eexists; split; [right; right; left; reflexivity|]. split; [reflexivity|]. split; [reflexivity|apply deny_iff].
  - change (2 =? XT_SIIT) with false. change (2 =? 1) with false in I. change (2 =? 2) with true in I. cbn [In] in I. destruct I as [I|[I|[]]]; injection I as <- <- <-.
    + eexists; eexists; split; [left; reflexivity|]. split; [reflexivity|]. split; [reflexivity|apply pool4_iff].
    + eexists; eexists; split; [right; left; reflexivity|]. split; [reflexivity|]. split; [reflexivity|apply bib_iff].
Qed.
Lemma globals_ok a v w w' : handle_globals U a v w = (None, w') -> exists gs, settings_mean R v gs /\ sent w' = sent w ++ [sets (a_xt a) (a_name a) (a_force a) gs].
Proof.
  unfold handle_globals, alloc_msg. cbn [sent allocs]. destruct (u_mem U (allocs w)); [|discriminate]. destruct (u_nest U); cbn [negb]; [|discriminate].
  destruct (u_mem U (S (allocs w))); [|discriminate]. fold (global_metas U). destruct (handle_object v (global_metas U) []) as [[e|] gs] eqn:H; [discriminate|].
  intros H'. exists gs. split; [apply settings_fwd; exact H|]. pose proof (request_sent (a_msg a (a_force a) None (match gs with [] => None | _ => Some gs end) None false) (World (sent w) (S (S (allocs w))))) as E.
  rewrite H' in E. exact E.
Qed.
Lemma top_steps a : xt_ok (a_xt a) -> forall d l w w', steps (top_metas a) d l w w' ->
  exists ss ms, sections R (a_xt a) l ss /\ transmits (a_xt a) (a_name a) (a_force a) ss ms /\ sent w' = sent w ++ ms.
Proof.
  intros X. induction 1 as [d s|d k v l s s' Rm H IH|d k v l m s s1 s' Rm I Hm Sn E H IH].
  - exists [], []. split; [constructor|]. split; [constructor|]. symmetry. apply app_nil_r.
  - destruct IH as (ss & ms & A & B & C). exists ss, ms. split; [apply s_other; [left; apply case_iff; exact Rm|exact A]|]. split; assumption.
  - destruct IH as (ss & ms & A & B & C). unfold top_metas in I. cbn [app In] in I. destruct I as [<-|[<-|[<-|I]]].
    + injection E as <-. exists ss, ms. split; [apply s_other; [right; left; apply case_iff; exact Hm|exact A]|]. split; assumption.
    + injection E as <-. exists ss, ms. split; [apply s_other; [right; right; apply case_iff; exact Hm|exact A]|]. split; assumption.
    + cbn [mt_handler] in E. destruct (globals_ok _ _ _ _ E) as (gs & G & Es). exists (Settings gs :: ss), (sets (a_xt a) (a_name a) (a_force a) gs :: ms).
      split; [apply s_global; [apply case_iff; exact Hm|exact G|exact A]|]. split; [apply t_settings; exact B|]. rewrite C, Es, <- app_assoc. reflexivity.
    + destruct (list_meta_in a m X I) as (t & kd & P & h & IL & En & Eh & _ & Hi & Ec). rewrite Eh in E. unfold handle_array in E. destruct v as [| | |? ? ?|?|js|?]; try discriminate.
      destruct (array_ok _ _ _ _ _ _ _ E) as (es & chunks & F & Cc & Ne & S1). cbn [app] in Cc. subst es.
      exists (Entries kd (List.concat chunks) :: ss), (map (carries (a_xt a) (a_name a) (a_force a) kd) chunks ++ ms).
      split; [|split; [apply t_entries; assumption|]].
      * eapply s_list; [exact IL|apply (hits_iff m t (k, JArr js) En); exact Hm|reflexivity| |exact A]. clear - F Hi. induction F; constructor; [apply Hi; assumption|assumption].
      * rewrite C, S1, (map_ext _ _ Ec), <- app_assoc. reflexivity.
Qed.
End Upload.
