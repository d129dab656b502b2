(** C04 - C08: the EAMT. *)
Require Import Verif.Base Verif.Addr_Model Verif.Addr_Spec Verif.Addr_Proofs.
Require Import Verif.Rtrie_Model Verif.Rtrie_Spec Verif.Rtrie_Hist Verif.Rtrie_Key.
Require Import Verif.Eam_Model Verif.Eam_Spec Verif.Eam_Proofs Verif.Eam_Bits Verif.Eam_Values.

(** ** C04 *)

(** 4 to 6: the result is the IPv6 prefix followed by the IPv4 suffix and zero
    padding, and lies in the prefix. *)
Theorem C04_eam_4to6 : forall e a4, wt_eam e -> validate_prefixes e = OK -> is_u32 a4 ->
  eam_xlat_4to6 e a4 = p6_addr (e_p6 e) +
    (a4 mod 2^(32 - p4_len (e_p4 e))) * 2^(128 - p6_len (e_p6 e) - (32 - p4_len (e_p4 e)))
  /\ is_u128 (eam_xlat_4to6 e a4) /\ in6 (e_p6 e) (eam_xlat_4to6 e a4).
Proof.
  intros e a4 Hw Hv Ha. destruct (validate_prefixes_legal e Hw) as [(_ & Hl)|(E & _)]; [|congruence].
  assert (He : good e) by (split; auto). split; [apply xlat46_val; auto|]. split; [|apply xlat46_in; auto].
  destruct (good_facts e He) as (A1 & A2 & A3 & A4). apply xlat46_bits; auto; [apply A2|apply Hl].
Qed.

(** 6 to 4: the result is the IPv4 prefix followed by the bits right after the
    IPv6 prefix. *)
Theorem C04_eam_6to4 : forall e a6, wt_eam e -> validate_prefixes e = OK -> is_u128 a6 ->
  eam_xlat_6to4 e a6 = p4_addr (e_p4 e) +
    (a6 / 2^(128 - p6_len (e_p6 e) - (32 - p4_len (e_p4 e)))) mod 2^(32 - p4_len (e_p4 e))
  /\ is_u32 (eam_xlat_6to4 e a6) /\ in4 (e_p4 e) (eam_xlat_6to4 e a6).
Proof.
  intros e a6 Hw Hv Ha. destruct (validate_prefixes_legal e Hw) as [(_ & Hl)|(E & _)]; [|congruence].
  assert (He : good e) by (split; auto). split; [apply xlat64_val; auto|]. split; [|apply xlat64_in; auto].
  destruct (good_facts e He) as (A1 & A2 & A3 & A4). apply xlat64_bits; auto; [apply A2|apply Hl].
Qed.

Theorem C04_eam_roundtrip : forall e a4, wt_eam e -> validate_prefixes e = OK -> is_u32 a4 ->
  in4 (e_p4 e) a4 -> eam_xlat_6to4 e (eam_xlat_4to6 e a4) = a4.
Proof.
  intros e a4 Hw Hv Ha Hin. destruct (validate_prefixes_legal e Hw) as [(_ & Hl)|(E & _)]; [|congruence].
  apply xlat_round; auto. split; auto.
Qed.

Definition ex_eam := Eam (P6 0x20010db8000000000000000000000000 120) (P4 0xc0000200 24).
Example C04_witness : wt_eam ex_eam /\ validate_prefixes ex_eam = OK /\ in4 (e_p4 ex_eam) 0xc0000205 /\
  eam_xlat_4to6 ex_eam 0xc0000205 = 0x20010db8000000000000000000000005.
Proof. repeat split; vm_compute; try reflexivity; try congruence. Qed.

(** Entry admission is exactly the documented condition. *)
Theorem C04_entry_admission : forall e, wt_eam e -> (validate_prefixes e = OK <-> legal e).
Proof.
  intros e Hw. destruct (validate_prefixes_legal e Hw) as [(E & Hl)|(E & Hl)]; rewrite E; split; auto; congruence.
Qed.

(** ** C05, C06, C08: histories *)

(** As long as no addition swallows a stored prefix (and no forced one lands
    inside one), every operation answers as the specification says, nothing
    freed is touched, the entry counter is exact, listing reports exactly the
    stored entries, and lookups use the longest matching prefix. *)
Theorem C05_C06_C08_tame_partial : forall ops, tame_history [] ops ->
  exists rs t tbl, eam_run eamt_alloc ops = Ok (rs, t) /\ espec_run [] ops rs tbl /\
    disjoint_entries tbl /\
    ecount t = u64 (Z.of_nat (length tbl)) /\
    (exists l, eamt_foreach t None = Ok (OK, l) /\ Permutation l tbl) /\
    (forall a, is_u32 a -> exists r, eamt_xlat_4to6 t a = Ok r /\ lpm4 tbl a (option_map snd r) /\
       (forall x e, r = Some (x, e) -> x = eam_xlat_4to6 e a)) /\
    (forall a, is_u128 a -> exists r, eamt_xlat_6to4 t a = Ok r /\ lpm6 tbl a (option_map snd r) /\
       (forall x e, r = Some (x, e) -> x = eam_xlat_6to4 e a)) /\
    (forall a, is_u32 a -> exists b, eamt_contains4 t a = Ok b /\ (b = true <-> exists e, In e tbl /\ in4 (e_p4 e) a)) /\
    (forall a, is_u128 a -> exists b, eamt_contains6 t a = Ok b /\ (b = true <-> exists e, In e tbl /\ in6 (e_p6 e) a)).
Proof.
  intros ops Ht. destruct (eam_run_ok ops eamt_alloc [] alloc_inv Ht) as (rs & t & tbl & E & S & I).
  exists rs, t, tbl. split; [exact E|]. split; [exact S|].
  pose proof I as (I6 & I4 & Ic & Ig & Id). split; [exact Id|]. split; [exact Ic|].
  split.
  { destruct (foreach_ok _ _ I4) as (l & El & Pl). exists l. split; [exact El|].
    rewrite Pl. unfold tab. rewrite map_map. cbn [snd]. rewrite map_id. reflexivity. }
  split; [|split; [|split]].
  - intros a Ha. destruct (find4 t tbl a I Ha) as (r & Er & Hr). unfold eamt_xlat_4to6. rewrite Er. cbn [bind].
    eexists. split; [reflexivity|]. destruct r as [e|]; cbn [option_map snd]; (split; [exact Hr|]); intros x e' Hx; congruence.
  - intros a Ha. destruct (find6 t tbl a I Ha) as (r & Er & Hr). unfold eamt_xlat_6to4. rewrite Er. cbn [bind].
    eexists. split; [reflexivity|]. destruct r as [e|]; cbn [option_map snd]; (split; [exact Hr|]); intros x e' Hx; congruence.
  - intros a Ha. destruct (find4 t tbl a I Ha) as (r & Er & Hr). unfold eamt_contains4, rtrie_contains, rtrie_find in *.
    destruct (find_lcp (trie4 t) (akey4 a) true) as [p| |]; cbn [bind] in *; try discriminate.
    eexists. split; [reflexivity|]. destruct p as [p|].
    + destruct (deref (trie4 t) p) as [n| |]; cbn [bind] in Er; try discriminate.
      destruct (n_val n) as [v|]; [|discriminate]. injection Er as <-. destruct Hr as (H1 & H2 & _). split; [eauto|auto].
    + injection Er as <-. split; [discriminate|]. intros (e & He & Hin). exfalso. exact (Hr e He Hin).
  - intros a Ha. destruct (find6 t tbl a I Ha) as (r & Er & Hr). unfold eamt_contains6, rtrie_contains, rtrie_find in *.
    destruct (find_lcp (trie6 t) (akey6 a) true) as [p| |]; cbn [bind] in *; try discriminate.
    eexists. split; [reflexivity|]. destruct p as [p|].
    + destruct (deref (trie6 t) p) as [n| |]; cbn [bind] in Er; try discriminate.
      destruct (n_val n) as [v|]; [|discriminate]. injection Er as <-. destruct Hr as (H1 & H2 & _). split; [eauto|auto].
    + injection Er as <-. split; [discriminate|]. intros (e & He & Hin). exfalso. exact (Hr e He Hin).
Qed.

(** Table-level round trip: a reply finds the entry its request used. *)
Theorem C04_table_roundtrip_partial : forall ops rs t a4 a6 e, tame_history [] ops ->
  eam_run eamt_alloc ops = Ok (rs, t) -> is_u32 a4 ->
  eamt_xlat_4to6 t a4 = Ok (Some (a6, e)) -> eamt_xlat_6to4 t a6 = Ok (Some (a4, e)).
Proof.
  intros ops rs t a4 a6 e Ht Er Ha Hx.
  destruct (eam_run_ok ops eamt_alloc [] alloc_inv Ht) as (rs' & t' & tbl & E & S & I).
  rewrite Er in E. injection E as <- <-. pose proof I as (I6 & I4 & Ic & Ig & Id). rewrite Forall_forall in Ig.
  destruct (find4 t tbl a4 I Ha) as (r & E4 & H4). unfold eamt_xlat_4to6 in Hx. rewrite E4 in Hx. cbn [bind] in Hx.
  destruct r as [e0|]; [|discriminate]. injection Hx as E6 Ee. subst e0. destruct H4 as (Hin & Hin4 & _).
  pose proof (Ig e Hin) as He. destruct (good_facts e He) as (A1 & A2 & A3 & A4).
  assert (H128 : is_u128 a6) by (subst a6; apply xlat46_bits; auto; [apply A2|apply He]).
  assert (H6 : in6 (e_p6 e) a6) by (subst a6; apply xlat46_in; auto).
  destruct (find6 t tbl a6 I H128) as (r & E6' & Hr). unfold eamt_xlat_6to4. rewrite E6'. cbn [bind].
  destruct r as [e'|].
  - destruct Hr as (Hin' & Hin6' & _). assert (e' = e).
    { destruct (in_split _ _ Hin) as (l1 & l2 & El). rewrite El in *. apply in_app_or in Hin'.
      destruct Hin' as [H|[H|H]]; auto; exfalso;
      (destruct (disjoint_split l1 e l2 Id e') as [D _]; [apply in_or_app; auto|]; apply D; exists a6; auto). }
    subst e'. repeat f_equal. subst a6. apply xlat_round; auto.
  - exfalso. exact (Hr e Hin H6).
Qed.

Definition mok := AMem true true true true true.
Definition p6n (n : Z) := P6 (0x20010db8000000000000000000000000 + n * 2^80) 48.
Definition add (n a l : Z) (f : bool) := EAdd (Eam (p6n n) (P4 a l)) f mok.

Lemma add_wt : forall n a l f, ((0 <=? n) && (n <? 2^16) && (0 <=? a) && (a <? 2^32) && (0 <=? l) && (l <? 256)) = true ->
  wt_op (add n a l f).
Proof.
  intros n a l f H. cbn [wt_op add]. unfold wt_eam, wt_prefix6, wt_prefix4, is_u128, is_u32, is_u8, p6n.
  cbn [e_p6 e_p4 p6_addr p6_len p4_addr p4_len]. lia.
Qed.
Lemma rm_wt : forall a l m1 m2, ((0 <=? a) && (a <? 2^32) && (0 <=? l) && (l <? 256)) = true ->
  wt_op (ERm None (Some (P4 a l)) m1 m2).
Proof.
  intros a l m1 m2 H. split; [discriminate|]. intros p [= <-]. unfold wt_prefix4, is_u32, is_u8. cbn [p4_addr p4_len]. lia.
Qed.

Ltac espec_add := first
 [ eapply ESAdd; [repeat split; vm_compute; congruence
                 | intros e' He'; repeat (destruct He' as [<-|He']; [split; vm_compute; congruence|]); destruct He'
                 | try discriminate | reflexivity] ].

Lemma in_step : forall w b l a, (a / 2^(w - l) =? b / 2^(w - l)) = true -> in_prefix w b l a.
Proof. intros. apply Z.eqb_eq. assumption. Qed.
Lemma notin_step : forall w b l a, (a / 2^(w - l) =? b / 2^(w - l)) = false -> ~ in_prefix w b l a.
Proof. intros w b l a H. apply Z.eqb_neq in H. exact H. Qed.

Local Ltac notwide := let Hl := fresh in let Hi := fresh in
  intros [Hl Hi]; revert Hl Hi; unfold in6, in4; cbn [e_p6 e_p4 p4_len p6_len p4_addr p6_addr p6n];
  first [intros _; apply notin_step; vm_compute; reflexivity | vm_compute; discriminate].

(** The hypotheses of the history theorem are met by mixed histories. *)
Definition tame_ex := [add 1 0xc0000200 24 false; add 2 0x0a000000 8 false;
  ERm None (Some (P4 0xc0000200 24)) true true; add 3 0xc0000280 25 true; EFlush].
Example C05_C06_C08_tame_witness :
  match eam_run eamt_alloc tame_ex with Ok (rs, _) => rs = [OK; OK; OK; OK; OK] | _ => False end
  /\ tame_history [] tame_ex.
Proof.
  split; [vm_compute; reflexivity|].
  cbn [tame_history tame_ex]. split; [repeat split; vm_compute; congruence|]. split; [intros e' []|].
  intros r t1 Hs1. inversion Hs1; subst; cbn [tame_history].
  2,3,4: exfalso; clear Hs1; first [match goal with H : ~ legal _ |- _ => apply H; repeat split; vm_compute; congruence end
    | match goal with H : In _ [] |- _ => destruct H end
    | match goal with H : ~ mem_ok _ |- _ => apply H; repeat split end].
  match goal with H : Permutation _ t1 |- _ => apply Permutation_length_1_inv in H; subst t1 end.
  split; [repeat split; vm_compute; congruence|].
  split.
  { intros e' [<-|[]]. split; [|split]; [notwide|notwide|discriminate]. }
  intros r2 t2 Hs2.
  assert (Ht2 : t2 = [Eam (p6n 1) (P4 0xc0000200 24)] \/ Permutation [Eam (p6n 2) (P4 0x0a000000 8); Eam (p6n 1) (P4 0xc0000200 24)] t2).
  { inversion Hs2; subst; auto. }
  split; [split; [discriminate|intros p [= <-]; split; vm_compute; split; congruence]|]. split; [exact I|].
  intros r3 t3 Hs3.
  assert (Ht3 : forall x, In x t3 -> In x [Eam (p6n 2) (P4 0x0a000000 8); Eam (p6n 1) (P4 0xc0000200 24)]).
  { intros x Hx. assert (Hx2 : In x t2).
    { inversion Hs3; subst; auto. eapply Permutation_in; [symmetry; eassumption|right; exact Hx]. }
    destruct Ht2 as [->|Hp]; [destruct Hx2 as [<-|[]]; cbn; auto|]. eapply Permutation_in; [symmetry; exact Hp|exact Hx2]. }
  split; [repeat split; vm_compute; congruence|]. split.
  2:{ intros r4 t4 _. split; [exact I|]. split; [exact I|]. intros. exact I. }
  intros e' He'. assert (e' <> Eam (p6n 1) (P4 0xc0000200 24)).
  { intros ->. inversion Hs3; subst.
    - match goal with H : forall e', In e' _ -> ~ names _ _ e' |- _ => apply (H _ He') end.
      split; [right; discriminate|]. split; [discriminate|]. intros p [= <-]. split; reflexivity.
    - match goal with H : forall e, In e _ -> ~ names _ _ e |- _ => apply (H _ He') end.
      split; [right; discriminate|]. split; [discriminate|]. intros p [= <-]. split; reflexivity. }
  destruct (Ht3 e' He') as [<-|[<-|[]]]; [|congruence].
  split; [|split; [|intros _; split]]; notwide.
Qed.

(** *** Refutations on the full set of histories *)

(** C05 is false once prefixes nest: with five forced additions, 10.1.1.1 is
    translated with the /12 although a /24 covering it is stored. *)
Definition lpm_history := [add 1 0x0a000000 8 true; add 2 0x0a010100 24 true; add 3 0x0a010200 24 true;
  add 4 0x0a010000 16 true; add 5 0x0a000000 12 true].
Theorem C05_longest_prefix_refuted : exists ops rs t tbl a r,
  Forall wt_op ops /\ eam_run eamt_alloc ops = Ok (rs, t) /\ Forall (eq OK) rs /\ espec_run [] ops rs tbl /\
  is_u32 a /\ eamt_xlat_4to6 t a = Ok r /\ ~ lpm4 tbl a (option_map snd r).
Proof.
  exists lpm_history. destruct (eam_run eamt_alloc lpm_history) as [[rs t]| |] eqn:E;
    [|vm_compute in E; discriminate|vm_compute in E; discriminate].
  exists rs, t.
  exists (map (fun '(n, a, l) => Eam (p6n n) (P4 a l))
    [(5, 0x0a000000, 12); (4, 0x0a010000, 16); (3, 0x0a010200, 24); (2, 0x0a010100, 24); (1, 0x0a000000, 8)]).
  exists 0x0a010101.
  assert (Hrs : rs = [OK; OK; OK; OK; OK]).
  { assert (H : match eam_run eamt_alloc lpm_history with Ok (x, _) => x | _ => [] end = [OK; OK; OK; OK; OK]) by (vm_compute; reflexivity).
    rewrite E in H. exact H. }
  assert (Hx : exists x, eamt_xlat_4to6 t 0x0a010101 = Ok (Some (x, Eam (p6n 5) (P4 0x0a000000 12)))).
  { assert (H : match eam_run eamt_alloc lpm_history with Ok (_, t) => eamt_xlat_4to6 t 0x0a010101 | _ => UB end
      = Ok (Some (0x20010db8000510101000000000000000, Eam (p6n 5) (P4 0x0a000000 12)))) by (vm_compute; reflexivity).
    rewrite E in H. eauto. }
  destruct Hx as (x & Hx). eexists.
  split; [repeat constructor; vm_compute; congruence|]. split; [reflexivity|]. split; [subst rs; repeat constructor|].
  split.
  { subst rs. cbn [map]. repeat (eapply ESRCons; [espec_add|]). apply ESRNil. }
  split; [vm_compute; split; congruence|]. split; [exact Hx|].
  cbn [option_map snd lpm4]. intros (_ & _ & H).
  specialize (H (Eam (p6n 2) (P4 0x0a010100 24))). cbn [map In] in H.
  assert (p4_len (P4 0x0a010100 24) <= p4_len (P4 0x0a000000 12)).
  { apply H; [tauto|]. apply in_step. vm_compute. reflexivity. }
  vm_compute in H0. congruence.
Qed.

(** C06 is false once prefixes nest: removing 10.1/16 and then 10.1.1/24 also
    makes 10/8 unreachable. *)
Definition lost_history := [add 1 0x0a000000 8 true; add 2 0x0a010000 16 true; add 3 0x0a010100 24 true; add 4 0x0a010200 24 true;
  ERm None (Some (P4 0x0a010000 16)) true true; ERm None (Some (P4 0x0a010100 24)) true true].
Theorem C06_entry_lost_refuted : exists ops rs t tbl a e,
  Forall wt_op ops /\ eam_run eamt_alloc ops = Ok (rs, t) /\ Forall (eq OK) rs /\ espec_run [] ops rs tbl /\
  is_u32 a /\ In e tbl /\ in4 (e_p4 e) a /\ eamt_xlat_4to6 t a = Ok None.
Proof.
  exists lost_history. destruct (eam_run eamt_alloc lost_history) as [[rs t]| |] eqn:E;
    [|vm_compute in E; discriminate|vm_compute in E; discriminate].
  exists rs, t.
  exists (map (fun '(n, a, l) => Eam (p6n n) (P4 a l)) [(4, 0x0a010200, 24); (1, 0x0a000000, 8)]).
  exists 0x0a020101, (Eam (p6n 1) (P4 0x0a000000 8)).
  assert (Hrs : rs = [OK; OK; OK; OK; OK; OK]).
  { assert (H : match eam_run eamt_alloc lost_history with Ok (x, _) => x | _ => [] end = [OK; OK; OK; OK; OK; OK]) by (vm_compute; reflexivity).
    rewrite E in H. exact H. }
  assert (Hx : eamt_xlat_4to6 t 0x0a020101 = Ok None).
  { assert (H : match eam_run eamt_alloc lost_history with Ok (_, t) => eamt_xlat_4to6 t 0x0a020101 | _ => UB end = Ok None) by (vm_compute; reflexivity).
    rewrite E in H. exact H. }
  split.
  { unfold lost_history. repeat apply Forall_cons; try apply Forall_nil;
      first [apply add_wt; vm_compute; reflexivity | apply rm_wt; vm_compute; reflexivity]. }
  split; [reflexivity|]. split; [subst rs; repeat constructor|].
  split.
  { subst rs. cbn [map]. do 4 (eapply ESRCons; [espec_add|]).
    eapply ESRCons.
    { apply ESRm with (e := Eam (p6n 2) (P4 0x0a010000 16)) (tbl' := map (fun '(n, a, l) => Eam (p6n n) (P4 a l)) [(4, 0x0a010200, 24); (3, 0x0a010100, 24); (1, 0x0a000000, 8)]).
      - split; [right; discriminate|]. split; [discriminate|]. intros p [= <-]. split; reflexivity.
      - cbn [map]. apply (Permutation_sym (Permutation_middle [Eam (p6n 4) (P4 0x0a010200 24); Eam (p6n 3) (P4 0x0a010100 24)] _ _)).
      - cbn [map]. intros e' He' (_ & _ & Hn). specialize (Hn _ eq_refl). destruct Hn as [Hn _].
        repeat (destruct He' as [<-|He']; [vm_compute in Hn; discriminate|]). destruct He'. }
    eapply ESRCons.
    { cbn [map]. apply ESRm with (e := Eam (p6n 3) (P4 0x0a010100 24)).
      - split; [right; discriminate|]. split; [discriminate|]. intros p [= <-]. split; reflexivity.
      - apply (Permutation_sym (Permutation_middle [Eam (p6n 4) (P4 0x0a010200 24)] _ _)).
      - cbn [app]. intros e' He' (_ & _ & Hn). specialize (Hn _ eq_refl). destruct Hn as [Hn Hi].
        destruct He' as [<-|[<-|[]]]; [|vm_compute in Hn; discriminate].
        revert Hi. apply notin_step. vm_compute. reflexivity. }
    apply ESRNil. }
  split; [vm_compute; split; congruence|]. split; [cbn; auto|]. split; [apply in_step; vm_compute; reflexivity|exact Hx].
Qed.

(** C08 is false: a freed node is dereferenced after three additions without
    --force and one removal. *)
Definition uaf_history := [add 1 0x0a010100 24 false; add 2 0x0a010200 24 false; add 3 0x0a010000 22 false;
  ERm None (Some (P4 0x0a010100 24)) true true].
Theorem C08_use_after_free_refuted : exists ops, Forall wt_op ops /\
  (forall e f m, In (EAdd e f m) ops -> f = false) /\ eam_run eamt_alloc ops = UB.
Proof.
  exists uaf_history. split; [|split; [|vm_compute; reflexivity]].
  - unfold uaf_history. repeat apply Forall_cons; try apply Forall_nil;
      first [apply add_wt; vm_compute; reflexivity | apply rm_wt; vm_compute; reflexivity].
  - intros e f m H. cbn in H. repeat (destruct H as [H|H]; [try (injection H as _ <- _; reflexivity); discriminate H|]). destruct H.
Qed.

(** ** C07 *)

(** Overlapping entries do get in without --force: the check only looks up the
    base address of the new prefix. *)
Theorem C07_overlap_accepted_refuted : exists ops rs t l,
  Forall wt_op ops /\ (forall e f m, In (EAdd e f m) ops -> f = false) /\
  eam_run eamt_alloc ops = Ok (rs, t) /\ Forall (eq OK) rs /\
  eamt_foreach t None = Ok (OK, l) /\
  exists a b, In a l /\ In b l /\ a <> b /\ overlap4 (e_p4 a) (e_p4 b).
Proof.
  set (ops := [add 1 0x0a010100 24 false; add 2 0x0a010000 16 false]).
  exists ops. destruct (eam_run eamt_alloc ops) as [[rs t]| |] eqn:E;
    [|vm_compute in E; discriminate|vm_compute in E; discriminate].
  exists rs, t, [Eam (p6n 2) (P4 0x0a010000 16); Eam (p6n 1) (P4 0x0a010100 24)].
  split; [repeat constructor; vm_compute; congruence|]. split.
  { intros e f m H. cbn in H. repeat (destruct H as [H|H]; [injection H as _ <- _; reflexivity|]). destruct H. }
  split; [reflexivity|].
  assert (Hrs : rs = [OK; OK]).
  { assert (H : match eam_run eamt_alloc ops with Ok (x, _) => x | _ => [] end = [OK; OK]) by (vm_compute; reflexivity).
    rewrite E in H. exact H. }
  split; [subst; repeat constructor|]. split.
  { assert (H : match eam_run eamt_alloc ops with Ok (_, t) => eamt_foreach t None | _ => UB end
       = Ok (OK, [Eam (p6n 2) (P4 0x0a010000 16); Eam (p6n 1) (P4 0x0a010100 24)])) by (vm_compute; reflexivity).
    rewrite E in H. exact H. }
  do 2 eexists. split; [left; reflexivity|]. split; [right; left; reflexivity|].
  split; [vm_compute; congruence|]. exists 0x0a010101.
  split; [vm_compute; split; congruence|]. split; apply in_step; vm_compute; reflexivity.
Qed.

(** What does hold: an unforced addition that equals or lies inside a stored
    prefix, in either family, is refused and changes nothing, and the table
    stays free of overlaps as long as no addition swallows a stored prefix. *)
Theorem C07_refuses_nested_partial : forall ops rs t tbl e m e', tame_history [] ops ->
  eam_run eamt_alloc ops = Ok (rs, t) -> espec_run [] ops rs tbl ->
  wt_eam e -> legal e -> In e' (match eamt_foreach t None with Ok (_, l) => l | _ => [] end) ->
  (in6 (e_p6 e') (p6_addr (e_p6 e)) \/ in4 (e_p4 e') (p4_addr (e_p4 e))) ->
  eamt_add t e false m = Ok (Err EEXIST, t).
Proof.
  intros ops rs t tbl e m e' Ht Er _ Hw Hl Hin Hnest.
  destruct (eam_run_ok ops eamt_alloc [] alloc_inv Ht) as (rs' & t' & tbl' & E & S & I).
  rewrite Er in E. injection E as <- <-. pose proof I as (I6 & I4 & Ic & Ig & Id). rewrite Forall_forall in Ig.
  destruct (foreach_ok _ _ I4) as (l & El & Pl). unfold eamt_foreach in Hin. cbn [option_map] in Hin. rewrite El in Hin.
  assert (Hin' : In e' tbl').
  { apply (Permutation_in _ Pl) in Hin. unfold tab in Hin. rewrite map_map in Hin. cbn [snd] in Hin. rewrite map_id in Hin. exact Hin. }
  destruct (good_facts e (conj Hw Hl)) as (A1 & A2 & A3 & A4).
  unfold eamt_add. destruct (validate_prefixes_legal e Hw) as [(-> & _)|(_ & Hn)]; [|contradiction].
  unfold validate_overlapping.
  destruct (find6 t tbl' (p6_addr (e_p6 e)) I A1) as (r6 & E6 & M6). rewrite E6. cbn [bind].
  destruct r6 as [o|].
  { unfold collision6. destruct (_ =? _); reflexivity. }
  destruct (find4 t tbl' (p4_addr (e_p4 e)) I A3) as (r4 & E4 & M4). rewrite E4. cbn [bind].
  destruct r4 as [o|].
  { unfold collision4. destruct (_ =? _); reflexivity. }
  exfalso. destruct Hnest as [H|H]; [exact (M6 e' Hin' H)|exact (M4 e' Hin' H)].
Qed.

(** eamt_is_empty (eam.c:416) answers the opposite of its name; it has no
    callers in the repository. *)
Theorem C06_is_empty_refuted : eamt_is_empty eamt_alloc = false /\
  exists rs t, eam_run eamt_alloc [add 1 0x0a010100 24 false] = Ok (rs, t) /\ eamt_is_empty t = true.
Proof.
  split; [reflexivity|]. destruct (eam_run eamt_alloc [add 1 0x0a010100 24 false]) as [[rs t]| |] eqn:E;
    [|vm_compute in E; discriminate|vm_compute in E; discriminate].
  exists rs, t. split; [reflexivity|].
  assert (H : match eam_run eamt_alloc [add 1 0x0a010100 24 false] with Ok (_, t) => eamt_is_empty t | _ => false end = true) by (vm_compute; reflexivity).
  rewrite E in H. exact H.
Qed.

Print Assumptions C04_eam_4to6.
Print Assumptions C04_eam_6to4.
Print Assumptions C04_eam_roundtrip.
Print Assumptions C04_entry_admission.
Print Assumptions C04_table_roundtrip_partial.
Print Assumptions C05_C06_C08_tame_partial.
Print Assumptions C05_longest_prefix_refuted.
Print Assumptions C06_entry_lost_refuted.
Print Assumptions C08_use_after_free_refuted.
Print Assumptions C07_overlap_accepted_refuted.
Print Assumptions C07_refuses_nested_partial.
Print Assumptions C06_is_empty_refuted.
Print Assumptions key_match_bytes_lcp.
