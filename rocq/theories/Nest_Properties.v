(** C05 - C08 for EAMT histories in which prefixes may be nested. *)
Require Import Verif.Base Verif.Addr_Model Verif.Addr_Spec Verif.Addr_Proofs.
Require Import Verif.Rtrie_Model Verif.Rtrie_Spec Verif.Rtrie_Hist Verif.Rtrie_Key.
Require Import Verif.Eam_Model Verif.Eam_Spec Verif.Eam_Proofs Verif.Eam_Bits Verif.Eam_Values Verif.Eam_Properties.
Require Import Verif.Nest_Spec Verif.Nest_Trie Verif.Nest_Steps Verif.Nest_Eam.

(** As long as general prefixes are added before the particular ones inside
    them, and what lies inside a prefix that leaves is nested in itself, every
    operation answers as the specification says, nothing freed is touched, the
    entry counter is exact, listing reports exactly the stored entries, and
    lookups use the longest matching prefix.  Missing for the full statement:
    the other histories, for which it is false
    (C05_longest_prefix_refuted and companions). *)
Theorem C05_C06_C08_orderly_partial : forall ops, orderly_history [] ops ->
  exists rs t tbl, eam_run eamt_alloc ops = Ok (rs, t) /\ espec_run [] ops rs tbl /\
    distinct_entries tbl /\
    ecount t = u64 (Z.of_nat (length tbl)) /\
    (exists l, eamt_foreach t None = Ok (OK, l) /\ Permutation l tbl) /\
    (forall a, is_u32 a -> exists r, eamt_xlat_4to6 t a = Ok r /\ lpm4 tbl a (option_map snd r) /\
       (forall x e, r = Some (x, e) -> x = eam_xlat_4to6 e a)) /\
    (forall a, is_u128 a -> exists r, eamt_xlat_6to4 t a = Ok r /\ lpm6 tbl a (option_map snd r) /\
       (forall x e, r = Some (x, e) -> x = eam_xlat_6to4 e a)) /\
    (forall a, is_u32 a -> exists b, eamt_contains4 t a = Ok b /\ (b = true <-> exists e, In e tbl /\ in4 (e_p4 e) a)) /\
    (forall a, is_u128 a -> exists b, eamt_contains6 t a = Ok b /\ (b = true <-> exists e, In e tbl /\ in6 (e_p6 e) a)).
Proof.
  intros ops Ht. destruct (neam_run_ok ops eamt_alloc [] nalloc_inv Ht) as (rs & t & tbl & E & S & I).
  exists rs, t, tbl. split; [exact E|]. split; [exact S|].
  pose proof I as (I6 & I4 & Ic & Ig & Id). split; [exact Id|]. split; [exact Ic|].
  split.
  { destruct (nforeach_ok _ _ I4) as (l & El & Pl). exists l. split; [exact El|].
    rewrite Pl. unfold tab. rewrite map_map. cbn [snd]. rewrite map_id. reflexivity. }
  split; [|split; [|split]].
  - intros a Ha. destruct (nfind4 t tbl a I Ha) as (r & Er & Hr). unfold eamt_xlat_4to6. rewrite Er. cbn [bind].
    eexists. split; [reflexivity|]. destruct r as [e|]; cbn [option_map snd]; (split; [exact Hr|]); intros x e' Hx; congruence.
  - intros a Ha. destruct (nfind6 t tbl a I Ha) as (r & Er & Hr). unfold eamt_xlat_6to4. rewrite Er. cbn [bind].
    eexists. split; [reflexivity|]. destruct r as [e|]; cbn [option_map snd]; (split; [exact Hr|]); intros x e' Hx; congruence.
  - intros a Ha. destruct (nfind4 t tbl a I Ha) as (r & Er & Hr). unfold eamt_contains4, rtrie_contains, rtrie_find in *.
    destruct (find_lcp (trie4 t) (akey4 a) true) as [p| |]; cbn [bind] in *; try discriminate.
    eexists. split; [reflexivity|]. destruct p as [p|].
    + destruct (deref (trie4 t) p) as [n| |]; cbn [bind] in Er; try discriminate.
      destruct (n_val n) as [v|]; [|discriminate]. injection Er as <-. destruct Hr as (H1 & H2 & _). split; [eauto|auto].
    + injection Er as <-. split; [discriminate|]. intros (e & He & Hin). exfalso. exact (Hr e He Hin).
  - intros a Ha. destruct (nfind6 t tbl a I Ha) as (r & Er & Hr). unfold eamt_contains6, rtrie_contains, rtrie_find in *.
    destruct (find_lcp (trie6 t) (akey6 a) true) as [p| |]; cbn [bind] in *; try discriminate.
    eexists. split; [reflexivity|]. destruct p as [p|].
    + destruct (deref (trie6 t) p) as [n| |]; cbn [bind] in Er; try discriminate.
      destruct (n_val n) as [v|]; [|discriminate]. injection Er as <-. destruct Hr as (H1 & H2 & _). split; [eauto|auto].
    + injection Er as <-. split; [discriminate|]. intros (e & He & Hin). exfalso. exact (Hr e He Hin).
Qed.

(** Unforced additions that equal a stored prefix, or start inside one, are
    refused and change nothing, also when the table holds nested prefixes. *)
Theorem C07_refuses_nested_orderly_partial : forall ops rs t e m e' l, orderly_history [] ops ->
  eam_run eamt_alloc ops = Ok (rs, t) -> eamt_foreach t None = Ok (OK, l) -> In e' l ->
  wt_eam e -> legal e ->
  (in6 (e_p6 e') (p6_addr (e_p6 e)) \/ in4 (e_p4 e') (p4_addr (e_p4 e))) ->
  eamt_add t e false m = Ok (Err EEXIST, t).
Proof.
  intros ops rs t e m e' l Ht Er Hl' Hin Hw Hl Hnest.
  destruct (neam_run_ok ops eamt_alloc [] nalloc_inv Ht) as (rs' & t' & tbl' & E & S & I).
  rewrite Er in E. injection E as <- <-. pose proof I as (I6 & I4 & Ic & Ig & Id). rewrite Forall_forall in Ig.
  destruct (nforeach_ok _ _ I4) as (l0 & El & Pl). unfold eamt_foreach in Hl'. cbn [option_map] in Hl'.
  rewrite El in Hl'. injection Hl' as ->.
  assert (Hin' : In e' tbl').
  { apply (Permutation_in _ Pl) in Hin. unfold tab in Hin. rewrite map_map in Hin. cbn [snd] in Hin. rewrite map_id in Hin. exact Hin. }
  destruct (good_facts e (conj Hw Hl)) as (A1 & A2 & A3 & A4).
  unfold eamt_add. destruct (validate_prefixes_legal e Hw) as [(-> & _)|(_ & Hn)]; [|contradiction].
  unfold validate_overlapping.
  destruct (nfind6 t tbl' (p6_addr (e_p6 e)) I A1) as (r6 & E6 & M6). rewrite E6. cbn [bind].
  destruct r6 as [o|].
  { unfold collision6. destruct (_ =? _); reflexivity. }
  destruct (nfind4 t tbl' (p4_addr (e_p4 e)) I A3) as (r4 & E4 & M4). rewrite E4. cbn [bind].
  destruct r4 as [o|].
  { unfold collision4. destruct (_ =? _); reflexivity. }
  exfalso. destruct Hnest as [H|H]; [exact (M6 e' Hin' H)|exact (M4 e' Hin' H)].
Qed.

(** ** C73: listing in pages *)

(** A listing interrupted after any entry is resumed exactly behind it by
    handing back that entry's IPv4 prefix: nothing is repeated or skipped. *)
Theorem C73_listing_resumes_partial : forall ops rs t l1 e l2, orderly_history [] ops ->
  eam_run eamt_alloc ops = Ok (rs, t) -> eamt_foreach t None = Ok (OK, l1 ++ e :: l2) ->
  eamt_foreach t (Some (e_p4 e)) = Ok (OK, l2).
Proof.
  intros ops rs t l1 e l2 Ht Er El.
  destruct (neam_run_ok ops eamt_alloc [] nalloc_inv Ht) as (rs' & t' & tbl & E & S & I).
  rewrite Er in E. injection E as <- <-. pose proof I as (I6 & I4 & Ic & Ig & Id).
  destruct (nforeach_ok _ _ I4) as (l & El' & Pl). unfold eamt_foreach in *. cbn [option_map] in *.
  rewrite El in El'. injection El' as <-.
  assert (Hin : In e tbl).
  { assert (H : In e (l1 ++ e :: l2)) by (apply in_or_app; right; left; reflexivity).
    apply (Permutation_in _ Pl) in H. unfold tab in H. rewrite map_map in H. cbn [snd] in H. rewrite map_id in H. exact H. }
  eapply nforeach_resume; [exact I4| | |exact El].
  - unfold tab. apply in_map_iff. exists e. split; [reflexivity|exact Hin].
  - intros k' Hk. unfold tab in Hk. apply in_map_iff in Hk. destruct Hk as (x & Ex & _). injection Ex as <- <-. reflexivity.
Qed.

(** In particular, nothing has been repeated: pages of any size put together
    are the listing.  [pages] asks for [n] entries at a time. *)
Fixpoint pages (fuel : nat) (t : eamt) (n : nat) (off : option prefix4) : option (list eam) :=
  match fuel with
  | O => None
  | S fuel' =>
    match eamt_foreach t off with
    | Ok (OK, l) =>
      if (length l <=? n)%nat then Some l
      else match nth_error l (n - 1) with
           | Some e => option_map (app (firstn n l)) (pages fuel' t n (Some (e_p4 e)))
           | None => None
           end
    | _ => None
    end
  end.

Theorem C73_pages_partial : forall ops rs t n l, orderly_history [] ops ->
  eam_run eamt_alloc ops = Ok (rs, t) -> (0 < n)%nat -> eamt_foreach t None = Ok (OK, l) ->
  pages (S (length l)) t n None = Some l.
Proof.
  intros ops rs t n l Ht Er Hn El.
  assert (G : forall fuel pre rest off, (length rest < fuel)%nat -> l = pre ++ rest ->
    eamt_foreach t off = Ok (OK, rest) -> pages fuel t n off = Some rest).
  { induction fuel as [|fuel IH]; intros pre rest off Hf Hl Ho; [lia|].
    cbn [pages]. rewrite Ho. destruct (length rest <=? n)%nat eqn:Le; [reflexivity|].
    apply Nat.leb_gt in Le. destruct (nth_error rest (n - 1)) as [e|] eqn:Ee.
    2:{ apply nth_error_None in Ee. lia. }
    pose proof (nth_error_split _ _ Ee) as (r1 & r2 & Er12 & Hlen).
    assert (Hf2 : firstn n rest = r1 ++ [e]).
    { rewrite Er12. replace (r1 ++ e :: r2) with ((r1 ++ [e]) ++ r2) by (rewrite <- app_assoc; reflexivity).
      rewrite firstn_app. assert (length (r1 ++ [e]) = n) by (rewrite app_length; cbn [length]; lia).
      rewrite H, Nat.sub_diag. cbn [firstn]. rewrite app_nil_r. rewrite <- H. apply firstn_all. }
    rewrite (IH (pre ++ r1 ++ [e]) r2 (Some (e_p4 e))).
    - cbn [option_map]. rewrite Hf2, Er12, <- app_assoc. reflexivity.
    - rewrite Er12 in Hf. rewrite app_length in Hf. cbn [length] in Hf. lia.
    - rewrite Hl, Er12, <- !app_assoc. reflexivity.
    - apply (C73_listing_resumes_partial ops rs t (pre ++ r1) e r2 Ht Er). rewrite El, Hl, Er12, <- app_assoc. reflexivity. }
  apply (G _ [] l None); auto.
Qed.

(** ** Orderly histories include the ones without nesting *)
Lemma apart_disj : forall e e', good e -> good e' -> e_p6 e' <> e_p6 e -> e_p4 e' <> e_p4 e ->
  ~ wider6 (e_p6 e) (e_p6 e') -> ~ wider4 (e_p4 e) (e_p4 e') ->
  ~ wider6 (e_p6 e') (e_p6 e) -> ~ wider4 (e_p4 e') (e_p4 e) -> disj e e'.
Proof.
  intros e e' G G' D6 D4 W6 W4 W6' W4'. split; intros H.
  - apply (overlap6_keys e e' G G') in H. destruct H as [H|H].
    + apply W6, strict_wider6; auto. split; [exact H|]. intros E. apply D6. symmetry. apply k6_inj; auto.
    + apply W6', strict_wider6; auto. split; [exact H|]. intros E. apply D6. apply k6_inj; auto.
  - apply (overlap4_keys e e' G G') in H. destruct H as [H|H].
    + apply W4, strict_wider4; auto. split; [exact H|]. intros E. apply D4. symmetry. apply k4_inj; auto.
    + apply W4', strict_wider4; auto. split; [exact H|]. intros E. apply D4. apply k4_inj; auto.
Qed.

Lemma wider_overlap : forall e e', good e -> good e' ->
  (wider6 (e_p6 e) (e_p6 e') -> overlap6 (e_p6 e) (e_p6 e')) /\ (wider4 (e_p4 e) (e_p4 e') -> overlap4 (e_p4 e) (e_p4 e')).
Proof.
  intros e e' G G'. destruct (good_facts e' G') as (A1 & A2 & A3 & A4). split; intros (_ & H).
  - exists (p6_addr (e_p6 e')). split; [exact A1|]. split; [exact H|reflexivity].
  - exists (p4_addr (e_p4 e')). split; [exact A3|]. split; [exact H|reflexivity].
Qed.

Theorem C05_tame_is_orderly : forall ops tbl, Forall good tbl -> disjoint_entries tbl ->
  tame_history tbl ops -> orderly_history tbl ops.
Proof.
  induction ops as [|o ops IH]; intros tbl Hg Hd Ht; [exact I|].
  destruct Ht as (Hw & Hta & Hn). cbn [orderly_history]. split; [exact Hw|].
  rewrite Forall_forall in Hg. split.
  - destruct o as [e f m|o6 o4 m1 m2|]; cbn [orderly tame] in *; auto.
    + intros e' He'. destruct (Hta e' He') as (X & Y & _). auto.
    + intros e He _ a b Ha Hb. destruct (in_split _ _ He) as (l1 & l2 & El). 
      assert (Z : forall x, In x tbl -> x = e \/ disj e x).
      { intros x Hx. rewrite El in Hx, Hd. apply in_app_or in Hx. destruct Hx as [Hx|[Hx|Hx]]; auto;
        right; apply (disjoint_split l1 e l2 Hd); apply in_or_app; auto. }
      destruct (Z a Ha) as [->|(D6 & D4)].
      { split; intros (H & _); lia. }
      destruct (wider_overlap e a (Hg e He) (Hg a Ha)) as (O6 & O4). split; intros H; exfalso; auto.
  - intros r tbl' Hs. apply IH; [| |exact (Hn r tbl' Hs)].
    + inversion Hs; subst; try (rewrite Forall_forall; assumption).
      * match goal with H : Permutation _ tbl' |- _ => rewrite <- H end. constructor; [split; [exact Hw|assumption]|rewrite Forall_forall; assumption].
      * match goal with H : Permutation tbl _ |- _ => rename H into P end. rewrite Forall_forall. intros x Hx. apply Hg.
        apply (Permutation_in _ (Permutation_sym P)). right. exact Hx.
      * constructor.
    + inversion Hs; subst; auto.
      * match goal with H : Permutation _ tbl' |- _ => apply (disjoint_perm _ _ H) end.
        constructor; [|exact Hd]. rewrite Forall_forall. intros x Hx.
        destruct f.
        -- destruct (Hta x Hx) as (W6 & W4 & W). destruct (W eq_refl) as (W6' & W4').
           match goal with H : forall e', In e' tbl -> _ <> _ /\ _ |- _ => destruct (H x Hx) end.
           apply apart_disj; auto. split; assumption.
        -- match goal with H : false = false -> _ |- _ => exact (H eq_refl x Hx) end.
      * match goal with H : Permutation tbl _ |- _ => pose proof (disjoint_perm _ _ H Hd) as Hd' end.
        inversion Hd'; subst; assumption.
      * constructor.
Qed.

(** ** A concrete nested history *)

(** Decides (soundly) that a history is orderly, following a list that holds
    at least the stored entries. *)
Definition inb w b l a := a / 2 ^ (w - l) =? b / 2 ^ (w - l).
Definition w6b p q := (p6_len p <? p6_len q) && inb 128 (p6_addr p) (p6_len p) (p6_addr q).
Definition w4b p q := (p4_len p <? p4_len q) && inb 32 (p4_addr p) (p4_len p) (p4_addr q).
Definition o6b p q := (0 <=? p6_addr p) && (p6_addr p <? 2^128) && (0 <=? p6_addr q) && (p6_addr q <? 2^128) &&
  (inb 128 (p6_addr p) (p6_len p) (p6_addr q) || inb 128 (p6_addr q) (p6_len q) (p6_addr p)).
Definition o4b p q := (0 <=? p4_addr p) && (p4_addr p <? 2^32) && (0 <=? p4_addr q) && (p4_addr q <? 2^32) &&
  (inb 32 (p4_addr p) (p4_len p) (p4_addr q) || inb 32 (p4_addr q) (p4_len q) (p4_addr p)).
Definition namesb (o6 : option prefix6) (o4 : option prefix4) (e : eam) : bool :=
  match o6, o4 with None, None => false | _, _ =>
    match o6 with None => true | Some p => (p6_len p =? p6_len (e_p6 e)) && inb 128 (p6_addr (e_p6 e)) (p6_len (e_p6 e)) (p6_addr p) end &&
    match o4 with None => true | Some p => (p4_len p =? p4_len (e_p4 e)) && inb 32 (p4_addr (e_p4 e)) (p4_len (e_p4 e)) (p4_addr p) end
  end.
Fixpoint orderlyb (sup : list eam) (ops : list eam_op) : bool :=
  match ops with
  | [] => true
  | EAdd e _ _ :: ops' =>
    forallb (fun e' => negb (w6b (e_p6 e) (e_p6 e')) && negb (w4b (e_p4 e) (e_p4 e'))) sup && orderlyb (e :: sup) ops'
  | ERm o6 o4 _ _ :: ops' =>
    forallb (fun e => negb (namesb o6 o4 e) || forallb (fun a => forallb (fun b =>
      (negb (w6b (e_p6 e) (e_p6 a) && w6b (e_p6 e) (e_p6 b)) || o6b (e_p6 a) (e_p6 b)) &&
      (negb (w4b (e_p4 e) (e_p4 a) && w4b (e_p4 e) (e_p4 b)) || o4b (e_p4 a) (e_p4 b))) sup) sup) sup
    && orderlyb (filter (fun e => negb (namesb o6 o4 e)) sup) ops'
  | EFlush :: ops' => orderlyb [] ops'
  end.

Lemma w6b_ok : forall p q, w6b p q = true <-> wider6 p q.
Proof. intros. unfold w6b, wider6, in6, in_prefix, inb. rewrite andb_true_iff, Z.ltb_lt, Z.eqb_eq. reflexivity. Qed.
Lemma w4b_ok : forall p q, w4b p q = true <-> wider4 p q.
Proof. intros. unfold w4b, wider4, in4, in_prefix, inb. rewrite andb_true_iff, Z.ltb_lt, Z.eqb_eq. reflexivity. Qed.
Lemma o6b_ok : forall p q, o6b p q = true -> overlap6 p q.
Proof.
  intros p q H. unfold o6b, inb in H. apply andb_prop in H. destruct H as [H O]. apply orb_prop in O. destruct O as [O|O]; apply Z.eqb_eq in O.
  - exists (p6_addr q). split; [unfold is_u128; lia|]. split; [exact O|reflexivity].
  - exists (p6_addr p). split; [unfold is_u128; lia|]. split; [reflexivity|exact O].
Qed.
Lemma o4b_ok : forall p q, o4b p q = true -> overlap4 p q.
Proof.
  intros p q H. unfold o4b, inb in H. apply andb_prop in H. destruct H as [H O]. apply orb_prop in O. destruct O as [O|O]; apply Z.eqb_eq in O.
  - exists (p4_addr q). split; [unfold is_u32; lia|]. split; [exact O|reflexivity].
  - exists (p4_addr p). split; [unfold is_u32; lia|]. split; [reflexivity|exact O].
Qed.
Lemma namesb_ok : forall o6 o4 e, namesb o6 o4 e = true <-> names o6 o4 e.
Proof.
  intros [p|] [q|] e; unfold namesb, names, in6, in4, in_prefix, inb; rewrite ?andb_true_iff, ?Z.eqb_eq; split; intros H.
  - destruct H as ((A & B) & C & D). split; [left; discriminate|]. split; intros ? [= <-]; auto.
  - destruct H as (_ & A & B). split; auto.
  - destruct H as ((A & B) & _). split; [left; discriminate|]. split; [intros ? [= <-]; auto|discriminate].
  - destruct H as (_ & A & B). auto.
  - destruct H as (_ & A & B). split; [right; discriminate|]. split; [discriminate|intros ? [= <-]; auto].
  - destruct H as (_ & A & B). auto.
  - discriminate.
  - destruct H as ([H|H] & _); congruence.
Qed.

Lemma orderlyb_ok : forall ops sup tbl, Forall wt_op ops -> incl tbl sup -> orderlyb sup ops = true -> orderly_history tbl ops.
Proof.
  induction ops as [|o ops IH]; intros sup tbl Hw Hi Hb; [exact I|].
  inversion Hw as [|? ? Hw1 Hw2]; subst. cbn [orderly_history]. split; [exact Hw1|].
  destruct o as [e f m|o6 o4 m1 m2|]; cbn [orderlyb] in Hb; try (apply andb_prop in Hb; destruct Hb as [Hb Hr]; rewrite forallb_forall in Hb).
  - split.
    + intros e' He'. specialize (Hb e' (Hi e' He')). apply andb_prop in Hb. destruct Hb as [B6 B4].
      apply negb_true_iff in B6, B4. split; intros H; [apply w6b_ok in H|apply w4b_ok in H]; congruence.
    + intros r tbl' Hs. apply (IH (e :: sup)); auto. intros x Hx. inversion Hs; subst; try (right; apply Hi; exact Hx).
      match goal with H : Permutation _ tbl' |- _ => apply (Permutation_in _ (Permutation_sym H)) in Hx end.
      destruct Hx as [<-|Hx]; [left; reflexivity|right; auto].
  - split.
    + intros e He Hn a b Ha Hb'. specialize (Hb e (Hi e He)). apply namesb_ok in Hn. rewrite Hn in Hb. cbn [negb orb] in Hb.
      rewrite forallb_forall in Hb. specialize (Hb a (Hi a Ha)). rewrite forallb_forall in Hb. specialize (Hb b (Hi b Hb')).
      apply andb_prop in Hb. destruct Hb as [B6 B4]. split; intros Wa Wb.
      * apply w6b_ok in Wa, Wb. rewrite Wa, Wb in B6. cbn in B6. apply o6b_ok. exact B6.
      * apply w4b_ok in Wa, Wb. rewrite Wa, Wb in B4. cbn in B4. apply o4b_ok. exact B4.
    + intros r tbl' Hs. apply (IH (filter (fun e => negb (namesb o6 o4 e)) sup)); auto. intros x Hx.
      assert (G : In x tbl -> ~ names o6 o4 x -> In x (filter (fun e => negb (namesb o6 o4 e)) sup)).
      { intros Hin Hn. apply filter_In. split; [apply Hi; exact Hin|]. apply negb_true_iff.
        destruct (namesb o6 o4 x) eqn:En; [apply namesb_ok in En; contradiction|reflexivity]. }
      inversion Hs; subst.
      * apply G; [|auto]. match goal with H : Permutation tbl _ |- _ => apply (Permutation_in _ (Permutation_sym H)) end. right. exact Hx.
      * apply G; auto.
      * apply G; auto. intros ([H|H] & _); congruence.
  - split; [exact I|]. intros r tbl' Hs. apply (IH []); auto. inversion Hs; subst. apply incl_nil_l.
Qed.

Definition nest_ex := [add 1 0x0a000000 8 false; add 2 0x0a010000 16 true; add 3 0x0a010100 24 true; add 4 0x0a020000 16 true;
  add 5 0x0a020000 24 false; add 6 0xc0000200 24 false; ERm None (Some (P4 0x0a010000 16)) true true; add 7 0x0a010180 25 true].

Lemma nest_ex_orderly : orderly_history [] nest_ex.
Proof.
  apply (orderlyb_ok _ []); [|apply incl_refl|vm_compute; reflexivity].
  unfold nest_ex. repeat apply Forall_cons; try apply Forall_nil;
    first [apply add_wt; vm_compute; reflexivity | apply rm_wt; vm_compute; reflexivity].
Qed.

Example C05_C06_C08_orderly_witness : orderly_history [] nest_ex /\
  match eam_run eamt_alloc nest_ex with
  | Ok (rs, t) => rs = [OK; OK; OK; OK; Err EEXIST; OK; OK; OK] /\
      option_map (fun r => e_p4 (snd r)) (match eamt_xlat_4to6 t 0x0a0101ff with Ok r => r | _ => None end) = Some (P4 0x0a010180 25) /\
      option_map (fun r => e_p4 (snd r)) (match eamt_xlat_4to6 t 0x0a010101 with Ok r => r | _ => None end) = Some (P4 0x0a010100 24) /\
      option_map (fun r => e_p4 (snd r)) (match eamt_xlat_4to6 t 0x0a010201 with Ok r => r | _ => None end) = Some (P4 0x0a000000 8) /\
      (exists l, eamt_foreach t None = Ok (OK, l) /\ length l = 5%nat /\ pages 6 t 2 None = Some l)
  | _ => False end.
Proof.
  split; [exact nest_ex_orderly|]. destruct (eam_run eamt_alloc nest_ex) as [[rs t]| |] eqn:E;
    [|vm_compute in E; discriminate|vm_compute in E; discriminate].
  assert (H : match eam_run eamt_alloc nest_ex with
    | Ok (rs, t) => rs = [OK; OK; OK; OK; Err EEXIST; OK; OK; OK] /\
      option_map (fun r => e_p4 (snd r)) (match eamt_xlat_4to6 t 0x0a0101ff with Ok r => r | _ => None end) = Some (P4 0x0a010180 25) /\
      option_map (fun r => e_p4 (snd r)) (match eamt_xlat_4to6 t 0x0a010101 with Ok r => r | _ => None end) = Some (P4 0x0a010100 24) /\
      option_map (fun r => e_p4 (snd r)) (match eamt_xlat_4to6 t 0x0a010201 with Ok r => r | _ => None end) = Some (P4 0x0a000000 8) /\
      match eamt_foreach t None with Ok (OK, l) => length l = 5%nat /\ pages 6 t 2 None = Some l | _ => False end
    | _ => False end) by (vm_compute; repeat split).
  rewrite E in H. destruct H as (H1 & H2 & H3 & H4 & H5). repeat (split; [assumption|]).
  destruct (eamt_foreach t None) as [[[|] l]| |]; try contradiction. exists l. split; [reflexivity|exact H5].
Qed.

(** C04 at the level of the table is false once prefixes nest: the reply to
    what 10/8 (2001:db8::/32) translated comes back with a different address,
    because the more particular 2001:db8:100::/40 of another entry takes it. *)
Definition hijack := [EAdd (Eam (P6 0x20010db8000000000000000000000000 32) (P4 0x0a000000 8)) false mok;
                      EAdd (Eam (P6 0x20010db8010000000000000000000000 40) (P4 0xc0000200 24)) true mok].
Theorem C04_table_roundtrip_refuted : exists ops rs t a4 a6 e b4 e',
  orderly_history [] ops /\ eam_run eamt_alloc ops = Ok (rs, t) /\ Forall (eq OK) rs /\ is_u32 a4 /\
  eamt_xlat_4to6 t a4 = Ok (Some (a6, e)) /\ eamt_xlat_6to4 t a6 = Ok (Some (b4, e')) /\ b4 <> a4.
Proof.
  exists hijack. destruct (eam_run eamt_alloc hijack) as [[rs t]| |] eqn:E;
    [|vm_compute in E; discriminate|vm_compute in E; discriminate].
  exists rs, t, 0x0a010203.
  assert (H : match eam_run eamt_alloc hijack with Ok (rs, t) => rs = [OK; OK] /\
    match eamt_xlat_4to6 t 0x0a010203 with
    | Ok (Some (a6, _)) => match eamt_xlat_6to4 t a6 with Ok (Some (b4, _)) => b4 =? 0x0a010203 | _ => true end = false
    | _ => False end
    | _ => False end) by (vm_compute; split; reflexivity).
  rewrite E in H. destruct H as (-> & H).
  destruct (eamt_xlat_4to6 t 0x0a010203) as [[[a6 e]|]| |]; try contradiction.
  exists a6, e. destruct (eamt_xlat_6to4 t a6) as [[[b4 e']|]| |]; [|discriminate H|discriminate H|discriminate H].
  exists b4, e'. split.
  { apply (orderlyb_ok _ []); [|apply incl_refl|vm_compute; reflexivity].
    unfold hijack. repeat apply Forall_cons; try apply Forall_nil; repeat split; vm_compute; congruence. }
  split; [reflexivity|]. split; [repeat constructor|]. split; [vm_compute; split; congruence|].
  split; [reflexivity|]. split; [reflexivity|]. apply Z.eqb_neq. exact H.
Qed.

Print Assumptions C05_C06_C08_orderly_partial.
Print Assumptions C07_refuses_nested_orderly_partial.
Print Assumptions C73_listing_resumes_partial.
Print Assumptions C73_pages_partial.
Print Assumptions C05_tame_is_orderly.
Print Assumptions C04_table_roundtrip_refuted.
