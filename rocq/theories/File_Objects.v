(** Proofs about configuration files: objects and entries. *)
Require Import Verif.Base Verif.Addr_Model Verif.Glob_Model Verif.Inst_Model Verif.Str_Model Verif.Json_Model Verif.File_Model Verif.File_Spec.
Require Import String Ascii.
Local Open Scope Z_scope.
Local Open Scope list_scope.

(** ** Words *)
Lemma lower_same x y : lower x = lower y <-> same_letter x y.
Proof. unfold lower, same_letter. destruct ((65 <=? x) && (x <=? 90)) eqn:A; destruct ((65 <=? y) && (y <=? 90)) eqn:B; lia. Qed.
Lemma str_eqb_iff a b : str_eqb a b = true <-> a = b.
Proof. unfold str_eqb. destruct (list_eq_dec Z.eq_dec a b); split; congruence. Qed.
Lemma map_lower_iff : forall a b, map lower a = map lower b <-> Forall2 same_letter a b.
Proof.
  induction a as [|x a IH]; intros [|y b]; split; intros H; try constructor; try discriminate; try (inversion H; fail).
  - cbn [map] in H. injection H as H1 H2. apply lower_same. exact H1.
  - cbn [map] in H. injection H as H1 H2. apply IH. exact H2.
  - inversion H; subst. cbn [map]. f_equal; [apply lower_same; assumption|apply IH; assumption].
Qed.
Lemma case_iff a k : case_eqb a (txt k) = true <-> same_word a k.
Proof. unfold case_eqb, same_word. rewrite str_eqb_iff. apply map_lower_iff. Qed.
Lemma case_iff' a k : case_eqb (txt k) a = true <-> same_word a k.
Proof. rewrite <- case_iff. unfold case_eqb. rewrite !str_eqb_iff. split; congruence. Qed.
Lemma case_false a k : case_eqb a (txt k) = false <-> ~ same_word a k.
Proof. rewrite <- case_iff. destruct (case_eqb a (txt k)); split; congruence. Qed.
Lemma case_eq_iff a b : case_eqb a b = true <-> map lower a = map lower b.
Proof. unfold case_eqb. apply str_eqb_iff. Qed.

(** ** Objects *)
Section Object.
Context {S : Type} (ms : list (meta S)).
Definition low (m : meta S) : list Z := map lower (mt_name m).
Definition hits (p : list Z * json) (m : meta S) : bool := case_eqb (fst p) (mt_name m).
Definition seen (d : members) (m : meta S) : bool := existsb (fun p => hits p m) d.
Lemma seen_app d e m : seen (d ++ e) m = seen d m || seen e m.
Proof. apply existsb_app. Qed.
Lemma hits_one p m m' : hits p m = true -> hits p m' = true -> low m = low m'.
Proof. unfold hits, low. rewrite !case_eq_iff. congruence. Qed.

Lemma handle_tag_hit : forall l key v d s, NoDup (map low l) ->
  handle_tag key v l (map (seen d) l) s =
  match find (hits (key, v)) l with
  | Some m => if seen d m then ((Some Bad, s), map (seen d) l) else (mt_handler m v s, map (seen (d ++ [(key, v)])) l)
  | None => ((Some Bad, s), map (seen d) l)
  end.
Proof.
  induction l as [|m l IH]; intros key v d s D; [reflexivity|].
  cbn [map] in D. inversion D as [|? ? NI D']; subst. cbn [handle_tag map find].
  change (case_eqb key (mt_name m)) with (hits (key, v) m). destruct (hits (key, v) m) eqn:H.
  - destruct (seen d m) eqn:Sn; [reflexivity|]. f_equal. f_equal.
    + rewrite seen_app. cbn [seen existsb]. rewrite H, Sn. reflexivity.
    + apply map_ext_in. intros m' I. rewrite seen_app. cbn [seen existsb].
      destruct (hits (key, v) m') eqn:H'; [|now rewrite !orb_false_r].
      exfalso. apply NI. rewrite (hits_one _ _ _ H H'). apply in_map. exact I.
  - rewrite IH by exact D'. destruct (find (hits (key, v)) l) as [m'|]; [|reflexivity].
    destruct (seen d m'); [reflexivity|]. f_equal. f_equal. rewrite seen_app. cbn [seen existsb]. rewrite H. now rewrite !orb_false_r.
Qed.

Definition remark (k : list Z) : bool := case_eqb k (txt "comment").
(** What reading the members [l], after [d], does to the state, if it succeeds *)
Inductive steps : members -> members -> S -> S -> Prop :=
| st_nil d s : steps d [] s s
| st_comment d k v l s s' : remark k = true -> steps (d ++ [(k, v)]) l s s' -> steps d ((k, v) :: l) s s'
| st_tag d k v l m s s1 s' : remark k = false -> In m ms -> hits (k, v) m = true -> seen d m = false -> mt_handler m v s = (None, s1) ->
    steps (d ++ [(k, v)]) l s1 s' -> steps d ((k, v) :: l) s s'.

Context (D : NoDup (map low ms)) (Q : Forall (fun m => low m <> map lower (txt "comment")) ms).
Lemma remark_misses k v m : In m ms -> remark k = true -> hits (k, v) m = false.
Proof.
  intros I R. destruct (hits (k, v) m) eqn:H; [|reflexivity]. exfalso. rewrite Forall_forall in Q. apply (Q m I).
  unfold remark in R. unfold hits in H. rewrite case_eq_iff in R, H. unfold low. cbn [fst] in H. congruence.
Qed.
Lemma seen_comment d k v : remark k = true -> map (seen (d ++ [(k, v)])) ms = map (seen d) ms.
Proof. intros R. apply map_ext_in. intros m I. rewrite seen_app. cbn [seen existsb]. rewrite (remark_misses k v m I R). now rewrite !orb_false_r. Qed.
Lemma find_hit p m : In m ms -> hits p m = true -> find (hits p) ms = Some m.
Proof.
  clear Q. induction ms as [|x l IH]; [intros []|]. intros I H. cbn [find]. cbn [map] in D. inversion D as [|? ? NI D']; subst.
  destruct I as [->|I]; [now rewrite H|]. destruct (hits p x) eqn:Hx; [|apply IH; assumption].
  exfalso. apply NI. rewrite (hits_one _ _ _ Hx H). apply in_map. exact I.
Qed.

Lemma children_iff : forall l d s s' f,
  children l ms (map (seen d) ms) s = ((None, s'), f) <-> steps d l s s' /\ f = map (seen (d ++ l)) ms.
Proof.
  induction l as [|[k v] l IH]; intros d s s' f; cbn [children].
  - rewrite app_nil_r. split; [intros [= <- <-]; split; [constructor|reflexivity]|]. intros [H ->]. inversion H; subst. reflexivity.
  - replace (d ++ (k, v) :: l) with ((d ++ [(k, v)]) ++ l) by (rewrite <- app_assoc; reflexivity).
    unfold handle_child. fold (remark k). destruct (remark k) eqn:R.
    + rewrite <- (seen_comment d k v R). rewrite IH. split; intros [H ->]; (split; [|reflexivity]).
      * apply st_comment; assumption.
      * inversion H; subst; [assumption|congruence].
    + rewrite handle_tag_hit by exact D. destruct (find (hits (k, v)) ms) as [m|] eqn:F.
      * apply find_some in F as [I H]. destruct (seen d m) eqn:Sn.
        { split; [discriminate|]. intros [X _]. inversion X as [|? ? ? ? ? ? R' ?|? ? ? ? m' ? ? ? R' I' H' Sn' E' X']; subst; [congruence|].
          pose proof (find_hit _ _ I H) as E1. rewrite (find_hit _ _ I' H') in E1. injection E1 as ->. congruence. }
        destruct (mt_handler m v s) as [[e|] s1] eqn:E.
        { split; [discriminate|]. intros [X _]. inversion X as [|? ? ? ? ? ? R' ?|? ? ? ? m' ? ? ? R' I' H' Sn' E' X']; subst; [congruence|].
          pose proof (find_hit _ _ I H) as E1. rewrite (find_hit _ _ I' H') in E1. injection E1 as ->. congruence. }
        rewrite IH. split; intros [X ->]; (split; [|reflexivity]).
        { eapply st_tag; eassumption. }
        inversion X as [|? ? ? ? ? ? R' ?|? ? ? ? m' ? ? ? R' I' H' Sn' E' X']; subst; [congruence|].
        pose proof (find_hit _ _ I H) as E1. rewrite (find_hit _ _ I' H') in E1. injection E1 as ->. rewrite E in E'. injection E' as <-. exact X'.
      * split; [discriminate|]. intros [X _]. inversion X as [|? ? ? ? ? ? R' ?|? ? ? ? m' ? ? ? R' I' H' Sn' E' X']; subst; [congruence|].
        pose proof (find_hit _ _ I' H') as E1. congruence.
Qed.
Lemma missing_iff : forall l (g : meta S -> bool), missing l (map g l) = false <-> forall m, In m l -> mt_mandatory m = true -> g m = true.
Proof.
  induction l as [|x l IH]; intros g; cbn [missing map]; [split; [intros _ ? []|reflexivity]|].
  rewrite orb_false_iff, IH. split.
  - intros [A B] m [->|I] M; [|apply B; assumption]. rewrite M in A. cbn in A. now destruct (g m).
  - intros H. split; [|intros m I; apply H; now right]. destruct (mt_mandatory x) eqn:M; [|reflexivity]. rewrite (H x (or_introl eq_refl) M). reflexivity.
Qed.
Lemma object_iff v s s' : handle_object v ms s = (None, s') <->
  exists l, v = JObj l /\ steps [] l s s' /\ forall m, In m ms -> mt_mandatory m = true -> seen l m = true.
Proof.
  unfold handle_object. destruct v as [| | |n1 n2 n3|t|a|l]; try (split; [discriminate|intros (? & ? & _); discriminate]).
  change (map (fun _ : meta S => false) ms) with (map (seen []) ms).
  destruct (children l ms (map (seen []) ms) s) as [[[e|] s1] f] eqn:C.
  - split; [discriminate|]. intros (l' & [= <-] & X & _). assert (Y : children l ms (map (seen []) ms) s = ((None, s'), map (seen ([] ++ l)) ms)) by (apply children_iff; split; [exact X|reflexivity]).
    congruence.
  - apply children_iff in C as [C ->]. cbn [app]. destruct (missing ms (map (seen l) ms)) eqn:M.
    + split; [discriminate|]. intros (l' & [= <-] & X & Y). assert (missing ms (map (seen l) ms) = false) by (apply missing_iff; exact Y). congruence.
    + assert (M' := proj1 (missing_iff ms (seen l)) M). split.
      * intros [= <-]. exists l. split; [reflexivity|]. split; assumption.
      * intros (l' & [= <-] & X & Y). f_equal.
        assert (Z1 : children l ms (map (seen []) ms) s = ((None, s'), map (seen ([] ++ l)) ms)) by (apply children_iff; split; [exact X|reflexivity]).
        assert (Z2 : children l ms (map (seen []) ms) s = ((None, s1), map (seen ([] ++ l)) ms)) by (apply children_iff; split; [exact C|reflexivity]). congruence.
Qed.

(** Every member is a comment or is called as one of the tags. *)
Lemma steps_only : forall d l s s', steps d l s s' -> forall p, In p l -> remark (fst p) = true \/ exists m, In m ms /\ hits p m = true.
Proof.
  induction 1 as [d s|d k v l s s' R H IH|d k v l m s s1 s' R I Hm Sn E H IH]; intros p; [intros []| |];
    (intros [<-|J]; [|apply IH; exact J]); [left; exact R|right; exists m; split; assumption].
Qed.
(** No tag twice *)
Lemma steps_once : forall d l s s', steps d l s s' -> forall m, In m ms ->
  seen l m = false \/ seen d m = false /\ exists a p b, l = a ++ p :: b /\ hits p m = true /\ seen (a ++ b) m = false.
Proof.
  induction 1 as [d s|d k v l s s' R H IH|d k v l m s s1 s' R I Hm Sn E H IH]; intros m' I'; [left; reflexivity| |].
  - destruct (IH m' I') as [A|(A & a & p & b & -> & B & C)].
    + left. cbn [seen existsb]. rewrite (remark_misses k v m' I' R). exact A.
    + right. split; [rewrite seen_app in A; apply orb_false_iff in A; tauto|]. exists ((k, v) :: a), p, b.
      split; [reflexivity|]. split; [exact B|]. cbn [app seen existsb]. rewrite (remark_misses k v m' I' R). exact C.
  - destruct (hits (k, v) m') eqn:Hm'.
    + assert (m' = m). { pose proof (find_hit _ _ I Hm) as E1. rewrite (find_hit _ _ I' Hm') in E1. congruence. } subst m'.
      destruct (IH m I) as [A|(A & _)].
      * right. split; [exact Sn|]. exists [], (k, v), l. split; [reflexivity|]. split; assumption.
      * rewrite seen_app in A. cbn [seen existsb] in A. rewrite Hm, orb_true_r in A. discriminate.
    + destruct (IH m' I') as [A|(A & a & p & b & -> & B & C)].
      * left. cbn [seen existsb]. rewrite Hm'. exact A.
      * right. split; [rewrite seen_app in A; apply orb_false_iff in A; tauto|]. exists ((k, v) :: a), p, b.
        split; [reflexivity|]. split; [exact B|]. cbn [app seen existsb]. rewrite Hm'. exact C.
Qed.
(** A field that only one of the handlers sets *)
Lemma steps_field {A} (g : S -> A) m : In m ms ->
  (forall m' v s s1, In m' ms -> m' <> m -> mt_handler m' v s = (None, s1) -> g s1 = g s) ->
  forall d l s s', steps d l s s' ->
  (seen l m = false /\ g s' = g s) \/
  (seen d m = false /\ exists a k v b s1 s2, l = a ++ (k, v) :: b /\ hits (k, v) m = true /\ seen (a ++ b) m = false /\ mt_handler m v s1 = (None, s2) /\ g s' = g s2).
Proof.
  intros I Keep. induction 1 as [d s|d k v l s s' R H IH|d k v l m' s s1 s' R I' Hm Sn E H IH]; [left; split; reflexivity| |].
  - destruct IH as [(B & C)|(B & a & k' & v' & b & s1 & s2 & -> & C1 & C2 & C3 & C4)].
    + left. split; [|exact C]. cbn [seen existsb]. rewrite (remark_misses k v m I R). exact B.
    + right. split; [rewrite seen_app in B; apply orb_false_iff in B; tauto|]. exists ((k, v) :: a), k', v', b, s1, s2.
      split; [reflexivity|]. split; [exact C1|]. split; [|split; assumption]. cbn [app seen existsb]. rewrite (remark_misses k v m I R). exact C2.
  - destruct (hits (k, v) m) eqn:Hm'.
    + assert (m' = m). { pose proof (find_hit _ _ I Hm') as E1. rewrite (find_hit _ _ I' Hm) in E1. congruence. } subst m'.
      destruct IH as [(B & C)|(B & _)].
      * right. split; [exact Sn|]. exists [], k, v, l, s, s1. split; [reflexivity|]. split; [exact Hm|]. split; [exact B|]. split; assumption.
      * rewrite seen_app in B. cbn [seen existsb] in B. rewrite Hm, orb_true_r in B. discriminate.
    + assert (NE : m' <> m) by (intros ->; congruence).
      assert (G := Keep m' v s s1 I' NE E).
      destruct IH as [(B & C)|(B & a & k' & v' & b & s2 & s3 & -> & C1 & C2 & C3 & C4)].
      * left. split; [cbn [seen existsb]; rewrite Hm'; exact B|congruence].
      * right. split; [rewrite seen_app in B; apply orb_false_iff in B; tauto|]. exists ((k, v) :: a), k', v', b, s2, s3.
        split; [reflexivity|]. split; [exact C1|]. split; [|split; assumption]. cbn [app seen existsb]. rewrite Hm'. exact C2.
Qed.
(** Members that each succeed, whatever the state *)
Lemma steps_exist (P : S -> Prop) : forall l d s, P s ->
  (forall k v, In (k, v) l -> remark k = true \/ exists m, In m ms /\ hits (k, v) m = true /\ forall s, P s -> exists s1, mt_handler m v s = (None, s1) /\ P s1) ->
  (forall m, In m ms -> seen l m = false \/ seen d m = false /\ exists a p b, l = a ++ p :: b /\ hits p m = true /\ seen (a ++ b) m = false) ->
  exists s', steps d l s s'.
Proof.
  induction l as [|[k v] l IH]; intros d s Ps H O; [exists s; constructor|].
  assert (O' : forall m, In m ms -> seen l m = false \/ seen (d ++ [(k, v)]) m = false /\ exists a p b, l = a ++ p :: b /\ hits p m = true /\ seen (a ++ b) m = false).
  { intros m I. destruct (O m I) as [A|(A & a & p & b & B & C & E)].
    - left. cbn [seen existsb] in A. apply orb_false_iff in A. tauto.
    - destruct a as [|q a]; cbn [app] in B, E; injection B as <- ->.
      + left. exact E.
      + cbn [seen existsb] in E. apply orb_false_iff in E as [E1 E2]. right. split; [rewrite seen_app; cbn [seen existsb]; rewrite A, E1; reflexivity|].
        exists a, p, b. split; [reflexivity|]. split; assumption. }
  destruct (H k v (or_introl eq_refl)) as [R|(m & I & Hm & Hh)].
  - destruct (IH (d ++ [(k, v)]) s Ps) as [s' X]; [intros k' v' J; apply H; right; exact J|exact O'|]. exists s'. apply st_comment; assumption.
  - destruct (remark k) eqn:R; [rewrite (remark_misses k v m I R) in Hm; discriminate|].
    destruct (Hh s Ps) as (s1 & E & Ps1). destruct (IH (d ++ [(k, v)]) s1 Ps1) as [s' X]; [intros k' v' J; apply H; right; exact J|exact O'|]. exists s'.
    eapply st_tag; [exact R|exact I|exact Hm| |exact E|exact X].
    destruct (O m I) as [A|(A & _)]; [|exact A]. cbn [seen existsb] in A. rewrite Hm in A. discriminate.
Qed.
End Object.

(** ** Names *)
Fixpoint nodupb (l : list (list Z)) : bool := match l with [] => true | x :: l => negb (existsb (str_eqb x) l) && nodupb l end.
Lemma nodupb_NoDup : forall l, nodupb l = true -> NoDup l.
Proof.
  induction l as [|x l IH]; intros H; [constructor|]. cbn [nodupb] in H. apply andb_true_iff in H as [A B]. constructor; [|apply IH; exact B].
  intros I. apply negb_true_iff in A. assert (existsb (str_eqb x) l = true); [|congruence]. apply existsb_exists. exists x. split; [exact I|]. apply str_eqb_iff. reflexivity.
Qed.
Definition names_ok (l : list (list Z)) : bool := nodupb (map (map lower) l) && forallb (fun x => negb (str_eqb (map lower x) (map lower (txt "comment")))) l.
Lemma names_ok_D {S} (ms : list (meta S)) : names_ok (map mt_name ms) = true -> NoDup (map low ms).
Proof. unfold names_ok. rewrite andb_true_iff, map_map. intros [A _]. apply nodupb_NoDup in A. exact A. Qed.
Lemma names_ok_Q {S} (ms : list (meta S)) : names_ok (map mt_name ms) = true -> Forall (fun m => low m <> map lower (txt "comment")) ms.
Proof.
  unfold names_ok. rewrite andb_true_iff. intros [_ A]. rewrite forallb_forall in A. apply Forall_forall. intros m I E.
  specialize (A (mt_name m) (in_map _ _ _ I)). apply negb_true_iff in A. assert (str_eqb (map lower (mt_name m)) (map lower (txt "comment")) = true); [|congruence].
  apply str_eqb_iff. exact E.
Qed.

Section Tags.
Context {S : Type}.
Lemma hits_iff (m : meta S) k p : mt_name m = txt k -> hits p m = true <-> same_word (fst p) k.
Proof. intros E. unfold hits. rewrite E. apply case_iff. Qed.
Lemma lacks_iff (m : meta S) k l : mt_name m = txt k -> seen l m = false <-> lacks l k.
Proof.
  intros E. unfold seen, lacks. induction l as [|p l IH]; [split; [constructor|reflexivity]|]. cbn [existsb]. rewrite orb_false_iff, IH.
  pose proof (hits_iff m k p E) as H. split.
  - intros [A B]. constructor; [|exact B]. intros X. apply H in X. congruence.
  - intros A. inversion A; subst. split; [|assumption]. destruct (hits p m); [|reflexivity]. exfalso. tauto.
Qed.
Lemma has_iff (m : meta S) k l v : mt_name m = txt k -> (exists a n b, l = a ++ (n, v) :: b /\ hits (n, v) m = true /\ seen (a ++ b) m = false) <-> has l k v.
Proof.
  intros E. unfold has. split; intros (a & n & b & A & B & C).
  - exists n, a, b. split; [exact A|]. split; [apply (hits_iff m k (n, v) E); exact B|apply (lacks_iff m k _ E); exact C].
  - exists n, a, b. split; [exact A|]. split; [apply (hits_iff m k (a, v) E); exact B|apply (lacks_iff m k _ E); exact C].
Qed.
End Tags.
Lemma has_in l k v n w : has l k v -> In (n, w) l -> same_word n k -> w = v.
Proof.
  intros (n' & a & b & -> & _ & L) I W. unfold lacks in L. rewrite Forall_forall in L. apply in_app_or in I as [I|[I|I]].
  - exfalso. apply (L (n, w)); [apply in_or_app; left; exact I|exact W].
  - congruence.
  - exfalso. apply (L (n, w)); [apply in_or_app; right; exact I|exact W].
Qed.
Lemma has_exists l k v : has l k v -> exists n, In (n, v) l /\ same_word n k.
Proof. intros (n & a & b & -> & W & _). exists n. split; [apply in_or_app; right; left; reflexivity|exact W]. Qed.
Lemma has_lacks l k v : has l k v -> lacks l k -> False.
Proof. intros H L. destruct (has_exists _ _ _ H) as (n & I & W). unfold lacks in L. rewrite Forall_forall in L. exact (L _ I W). Qed.
Lemma has_unique l k v w : has l k v -> has l k w -> v = w.
Proof. intros H H'. destruct (has_exists _ _ _ H) as (n & I & W). eapply has_in; eassumption. Qed.

(** The value of a field after reading an object *)
Section Fields.
Context {S : Type} (ms : list (meta S)) (OKn : names_ok (map mt_name ms) = true).
Lemma field_value {A B} (g : S -> B) (h : A -> B) get put m k l s s' : In m ms -> mt_name m = txt k -> mt_handler m = field get put ->
  (forall x s, g (put x s) = h x) ->
  (forall m' v s s1, In m' ms -> m' <> m -> mt_handler m' v s = (None, s1) -> g s1 = g s) ->
  steps ms [] l s s' -> (exists v x, has l k v /\ get v = Some x /\ g s' = h x) \/ (lacks l k /\ g s' = g s).
Proof.
  intros I En Eh Hp Keep St.
  destruct (steps_field ms (names_ok_D _ OKn) (names_ok_Q _ OKn) g m I Keep _ _ _ _ St) as [(A1 & A2)|(_ & a & n & v & b & s1 & s2 & E & H1 & H2 & H3 & H4)].
  - right. split; [apply (lacks_iff m k l En); exact A1|exact A2].
  - left. rewrite Eh in H3. unfold field in H3. destruct (get v) as [x|] eqn:G; [|discriminate]. exists v, x.
    split; [apply (has_iff m k l v En); exists a, n, b; split; [exact E|split; assumption]|]. split; [exact G|]. injection H3 as <-. rewrite H4. apply Hp.
Qed.
Lemma once_seen (m : meta S) k l : mt_name m = txt k -> once l k ->
  seen l m = false \/ seen [] m = false /\ exists a p b, l = a ++ p :: b /\ hits p m = true /\ seen (a ++ b) m = false.
Proof.
  intros E [L|[v H]]; [left; apply (lacks_iff m k l E); exact L|right]. split; [reflexivity|].
  apply (has_iff m k l v E) in H as (a & n & b & H). exists a, (n, v), b. exact H.
Qed.
Lemma seen_once m k l s s' : In m ms -> mt_name m = txt k -> steps ms [] l s s' -> once l k.
Proof.
  intros I E St. destruct (steps_once ms (names_ok_D _ OKn) (names_ok_Q _ OKn) _ _ _ _ St m I) as [A|(_ & a & [n v] & b & H)].
  - left. apply (lacks_iff m k l E). exact A.
  - right. exists v. apply (has_iff m k l v E). exists a, n, b. exact H.
Qed.
Lemma steps_words ks l s s' : (forall m, In m ms -> exists k, In k ks /\ mt_name m = txt k) -> steps ms [] l s s' -> only l ks.
Proof.
  intros K St. apply Forall_forall. intros p I. destruct (steps_only ms _ _ _ _ St p I) as [R|(m & Im & H)].
  - left. apply case_iff. exact R.
  - right. destruct (K m Im) as (k & Ik & E). exists k. split; [exact Ik|]. apply (hits_iff m k p E). exact H.
Qed.
Lemma steps_run ks l s : (forall k, In k ks -> exists m, In m ms /\ mt_name m = txt k /\ forall v, has l k v -> forall s, exists s1, mt_handler m v s = (None, s1)) ->
  (forall m, In m ms -> exists k, In k ks /\ mt_name m = txt k) ->
  only l ks -> Forall (once l) ks -> exists s', steps ms [] l s s'.
Proof.
  intros K K' O On. apply (steps_exist ms (names_ok_Q _ OKn) (fun _ => True)); [exact Logic.I| |].
  - intros k v I. unfold only in O. rewrite Forall_forall in O. destruct (O _ I) as [C|(w & Iw & W)].
    + left. apply case_iff. exact C.
    + right. destruct (K w Iw) as (m & Im & E & H). exists m. split; [exact Im|]. split; [apply (hits_iff m w (k, v) E); exact W|].
      intros s0 _. rewrite Forall_forall in On. destruct (On w Iw) as [L|[v' H']].
      * exfalso. unfold lacks in L. rewrite Forall_forall in L. exact (L _ I W).
      * rewrite (has_in _ _ _ _ _ H' I W). destruct (H v' H' s0) as [s1 E1]. exists s1. split; [exact E1|exact Logic.I].
  - intros m Im. destruct (K' m Im) as (k & Ik & E). rewrite Forall_forall in On. eapply once_seen; [exact E|apply On; exact Ik].
Qed.
End Fields.

(** ** Numbers *)
Section Numbers.
Local Ltac Zify.zify_post_hook ::= Z.div_mod_to_equations.
Lemma pow10 n : 0 <= n -> 0 < 10 ^ n.
Proof. intros. apply Z.pow_pos_nonneg; lia. Qed.
Lemma part_unique v u w : is_part v u -> is_part v w -> u = w.
Proof.
  intros (neg & m & e & -> & _ & H) (neg' & m' & e' & [= <- <- <-] & _ & H'). cbv zeta in *.
  pose proof (pow10 (Z.max 0 (- e)) ltac:(lia)) as P. set (b := 10 ^ Z.max 0 (- e)) in *. set (a := (if neg then - m else m) * 10 ^ Z.max 0 e) in *. clearbody a b. nia.
Qed.
Lemma uint_part neg m e u : num_uint neg m e = Some u -> 0 <= u -> is_part (JNum neg m e) u.
Proof.
  unfold num_uint. intros H U. assert (P := pow10 (Z.max 0 (- e)) ltac:(lia)). destruct neg.
  - destruct (m =? 0) eqn:E; [|discriminate]. injection H as <-. apply Z.eqb_eq in E. subst m. exists true, 0, e.
    split; [reflexivity|]. split; [lia|]. cbv zeta. cbn [Z.opp]. rewrite Z.mul_0_l. lia.
  - destruct (num_le m e (2 ^ 32 - 1)) eqn:L; [|discriminate]. injection H as <-. exists false, m, e. split; [reflexivity|]. unfold num_le, whole in *.
    destruct (0 <=? e) eqn:E.
    + rewrite (Z.max_r 0 e), (Z.max_l 0 (- e)) by lia. cbv zeta. change (10 ^ 0) with 1.
      assert (Q := pow10 e ltac:(lia)). split; [nia|]. lia.
    + rewrite (Z.max_l 0 e), (Z.max_r 0 (- e)) in * by lia. cbv zeta. change (10 ^ 0) with 1. apply Z.leb_le in L.
      set (b := 10 ^ (- e)) in *. clearbody b. assert (0 <= m) by (destruct (Z_lt_le_dec m 0); [exfalso; assert (m / b < 0) by (apply Z.div_lt_upper_bound; lia); lia|lia]).
      split; [lia|]. pose proof (Z.mul_div_le m b P). pose proof (Z.mul_succ_div_gt m b P). split; [lia|]. split; [lia|]. lia.
Qed.
Lemma part_uint neg m e u : is_part (JNum neg m e) u -> num_uint neg m e = Some u.
Proof.
  intros H. assert (V : exists w, num_uint neg m e = Some w /\ 0 <= w).
  { destruct H as (neg' & m' & e' & [= <- <- <-] & Hm & Hr & _). cbv zeta in Hr. assert (P := pow10 (Z.max 0 (- e)) ltac:(lia)). assert (P' := pow10 (Z.max 0 e) ltac:(lia)). unfold num_uint. destruct neg.
    - assert (m = 0) as -> by nia. exists 0. split; [reflexivity|lia].
    - unfold num_le, whole. destruct (0 <=? e) eqn:E.
      + rewrite (Z.max_r 0 e), (Z.max_l 0 (- e)) in Hr by lia. change (10 ^ 0) with 1 in Hr.
        replace (m * 10 ^ e <=? 2 ^ 32 - 1) with true by lia. eexists; split; [reflexivity|lia].
      + rewrite (Z.max_l 0 e), (Z.max_r 0 (- e)) in * by lia. change (10 ^ 0) with 1 in Hr.
        replace (m <=? (2 ^ 32 - 1) * 10 ^ (- e)) with true by lia. eexists; split; [reflexivity|]. apply Z.div_pos; lia. }
  destruct V as (w & E & W). rewrite E. f_equal. eapply part_unique; [eapply uint_part; eassumption|exact H].
Qed.
Lemma part_nonneg v u : is_part v u -> 0 <= u < 2 ^ 32.
Proof.
  intros (neg & m & e & -> & _ & H). cbv zeta in H. assert (P := pow10 (Z.max 0 (- e)) ltac:(lia)).
  set (b := 10 ^ Z.max 0 (- e)) in *. set (a := (if neg then - m else m) * 10 ^ Z.max 0 e) in *. clearbody a b. nia.
Qed.
Lemma validate_iff v a b u : 0 <= a -> validate_uint v a b = Some u <-> between a b is_part v u.
Proof.
  intros A. unfold validate_uint, between. destruct v as [| | |neg m e|t|l|l]; try (split; [discriminate|intros [(? & ? & ? & ? & _) _]; discriminate]).
  split.
  - destruct (num_uint neg m e) as [w|] eqn:E; [|discriminate]. destruct ((w <? a) || (b <? w)) eqn:C; [discriminate|]. intros [= <-].
    apply orb_false_iff in C as [C1 C2]. split; [|lia]. apply uint_part; [exact E|lia].
  - intros [H R]. rewrite (part_uint _ _ _ _ H). replace ((u <? a) || (b <? u)) with false; [reflexivity|]. symmetry. apply orb_false_iff. lia.
Qed.
Lemma int_part_low neg m e w : num_uint neg m e = Some w -> 0 <= w -> 0 <= m /\ 
  let a := (if neg then - m else m) * 10 ^ Z.max 0 e in let b := 10 ^ Z.max 0 (- e) in
  match num_int neg m e with Some i => i = w /\ a <= (2 ^ 31 - 1) * b | None => (2 ^ 31 - 1) * b < a end.
Proof.
  intros H W. cbv zeta. destruct (uint_part _ _ _ _ H W) as (neg' & m' & e' & [= <- <- <-] & Hm & _). split; [exact Hm|].
  assert (P := pow10 (Z.max 0 (- e)) ltac:(lia)). unfold num_uint in H. unfold num_int. destruct neg.
  - destruct (m =? 0) eqn:E; [|discriminate]. injection H as <-. apply Z.eqb_eq in E. subst m. unfold num_le, whole. cbn [Z.opp]. rewrite !Z.mul_0_l.
    destruct (0 <=? e) eqn:Ee.
    + split; [reflexivity|lia].
    + rewrite (Z.max_r 0 (- e)) in * by lia. replace (0 <=? 2 ^ 31 * 10 ^ (- e)) with true by lia. split; [|lia]. rewrite Z.div_0_l by lia. reflexivity.
  - destruct (num_le m e (2 ^ 32 - 1)) eqn:L; [|discriminate]. injection H as <-. unfold num_le in *.
    destruct (0 <=? e) eqn:E.
    + rewrite (Z.max_r 0 e), (Z.max_l 0 (- e)) by lia. change (10 ^ 0) with 1. destruct (m * 10 ^ e <=? 2 ^ 31 - 1) eqn:L2; lia.
    + rewrite (Z.max_l 0 e), (Z.max_r 0 (- e)) in * by lia. change (10 ^ 0) with 1. destruct (m <=? (2 ^ 31 - 1) * 10 ^ (- e)) eqn:L2; lia.
Qed.
Lemma mark_iff v u : json2mark v = Some u <-> between 0 (2 ^ 32 - 1) is_mark_part v u.
Proof.
  unfold json2mark, MAX_U32. split.
  - destruct (validate_uint v 0 (2 ^ 32 - 1)) as [w|] eqn:E; [|discriminate]. destruct v as [| | |neg m e|t|l|l]; try discriminate. intros H.
    assert (En : num_uint neg m e = Some w). { unfold validate_uint in E. destruct (num_uint neg m e); [|discriminate]. destruct (_ || _); congruence. }
    apply validate_iff in E; [|lia]. destruct E as [E R]. destruct (int_part_low _ _ _ _ En ltac:(lia)) as [Hm X]. cbv zeta in X.
    destruct (num_int neg m e) as [i|].
    + destruct X as [-> X]. assert (u = w) as ->. { injection H as <-. apply Z.mod_small. lia. }
      split; [|exact R]. exists neg, m, e, w. split; [reflexivity|]. split; [exact E|]. cbv zeta. left. split; [exact X|reflexivity].
    + injection H as <-. split; [|lia]. exists neg, m, e, w. split; [reflexivity|]. split; [exact E|]. cbv zeta. right. split; [exact X|reflexivity].
  - intros [(neg & m & e & w & -> & Hw & X) R]. cbv zeta in X. assert (W := part_nonneg _ _ Hw).
    assert (V : validate_uint (JNum neg m e) 0 (2 ^ 32 - 1) = Some w) by (apply validate_iff; [lia|]; split; [exact Hw|lia]). rewrite V.
    destruct (int_part_low _ _ _ _ (part_uint _ _ _ _ Hw) ltac:(lia)) as [Hm Y]. cbv zeta in Y.
    destruct (num_int neg m e) as [i|].
    + destruct Y as [-> Y]. destruct X as [[_ ->]|[X _]]; [|lia]. f_equal. apply Z.mod_small. lia.
    + destruct X as [[X _]|[_ ->]]; [lia|reflexivity].
Qed.
(** Whole numbers are read as such. *)
Lemma number_part v u : is_number v u -> 0 <= u <= 2 ^ 32 - 1 -> is_part v u.
Proof.
  intros (neg & m & e & -> & Hm & E) R. exists neg, m, e. split; [reflexivity|]. split; [exact Hm|]. cbv zeta. rewrite E.
  assert (P := pow10 (Z.max 0 (- e)) ltac:(lia)). set (b := 10 ^ Z.max 0 (- e)) in *. clearbody b. nia.
Qed.
Lemma number_mark v u : is_number v u -> 0 <= u < 2 ^ 31 -> is_mark_part v u.
Proof.
  intros H R. assert (Hp := number_part v u H ltac:(lia)). destruct H as (neg & m & e & -> & Hm & E). exists neg, m, e, u.
  split; [reflexivity|]. split; [exact Hp|]. cbv zeta. left. split; [|reflexivity]. rewrite E.
  assert (P := pow10 (Z.max 0 (- e)) ltac:(lia)). set (b := 10 ^ Z.max 0 (- e)) in *. clearbody b. nia.
Qed.
End Numbers.

(** ** Entries *)

(** Texts as the functions of [Str_Model] read them; numbers without their fractions, large marks as zero *)
Definition as_read (N : inet) : reading :=
  Reading (fun s p => str_to_prefix6 N s = Some p) (fun s p => str_to_prefix4 N s = Some p)
    (fun s x => str_to_addr6_port N s = Some x) (fun s x => str_to_addr4_port N s = Some x)
    (fun s x => str_to_port_range s = Some x) (fun s n => str_to_timeout s = Some n) is_part is_mark_part.
(** The same, but only whole numbers, and marks that are less than 2^31 *)
Definition exactly (N : inet) : reading :=
  Reading (fun s p => str_to_prefix6 N s = Some p) (fun s p => str_to_prefix4 N s = Some p)
    (fun s x => str_to_addr6_port N s = Some x) (fun s x => str_to_addr4_port N s = Some x)
    (fun s x => str_to_port_range s = Some x) (fun s n => str_to_timeout s = Some n) is_number (fun v u => is_number v u /\ u < 2 ^ 31).

Section Entries.
Context (U : uenv).
Notation N := (u_inet U).
Notation R := (as_read N).

Lemma text_iff {T} (f : list Z -> option T) v x : match v with JStr s => f s | _ => None end = Some x <-> text (fun s y => f s = Some y) v x.
Proof.
  unfold text. split.
  - destruct v; try discriminate. intros H. exists s. split; [reflexivity|exact H].
  - intros (s & -> & H). exact H.
Qed.
Lemma proto_iff v p : json2proto v = Some p <-> text protocol v p.
Proof.
  unfold json2proto, text, protocol. split.
  - destruct v as [| | |? ? ?|s|?|?]; try discriminate. intros H. exists s. split; [reflexivity|].
    destruct (case_eqb (txt "TCP") s) eqn:T; [apply case_iff' in T; left; split; [exact T|congruence]|].
    destruct (case_eqb (txt "UDP") s) eqn:Tu; [apply case_iff' in Tu; right; left; split; [exact Tu|congruence]|].
    destruct (case_eqb (txt "ICMP") s) eqn:Ti; [apply case_iff' in Ti; right; right; split; [exact Ti|congruence]|discriminate].
  - intros (s & -> & H).
    assert (X : forall k k', same_word s k -> map lower (txt k) <> map lower (txt k') -> case_eqb (txt k') s = false).
    { intros k k' A B. destruct (case_eqb (txt k') s) eqn:E; [|reflexivity]. apply case_iff in A. unfold case_eqb in *. rewrite str_eqb_iff in *. congruence. }
    destruct H as [[H ->]|[[H ->]|[H ->]]].
    + rewrite (proj2 (case_iff' s "TCP") H). reflexivity.
    + rewrite (X _ "TCP"%string H) by discriminate. rewrite (proj2 (case_iff' s "UDP") H). reflexivity.
    + rewrite (X _ "TCP"%string H), (X _ "UDP"%string H) by discriminate. rewrite (proj2 (case_iff' s "ICMP") H). reflexivity.
Qed.
Lemma iterations_iff v x : json2max_iterations v = Some x <-> iterations R v x.
Proof.
  unfold json2max_iterations, iterations. split.
  - destruct v as [| | |neg m e|s|?|?]; try discriminate.
    + unfold MAX_U32. destruct (validate_uint (JNum neg m e) 1 (2 ^ 32 - 1)) as [u|] eqn:E; [|discriminate]. intros [= <-]. left. exists u. split; [|reflexivity]. apply validate_iff in E; [exact E|lia].
    + destruct (str_eqb s (txt "auto")) eqn:A; [apply str_eqb_iff in A; subst s; intros [= <-]; right; left; split; reflexivity|].
      destruct (str_eqb s (txt "infinity")) eqn:B; [apply str_eqb_iff in B; subst s; intros [= <-]; right; right; split; reflexivity|discriminate].
  - intros [(u & H & ->)|[[-> ->]|[-> ->]]]; [|reflexivity|reflexivity].
    assert (V : validate_uint v 1 (2 ^ 32 - 1) = Some u) by (apply validate_iff; [lia|exact H]). unfold MAX_U32.
    destruct v as [| | |neg m e|s|?|?]; try discriminate. rewrite V. reflexivity.
Qed.

Ltac keep := let m := fresh in let NE := fresh in let H := fresh in
  intros m ? ? ? I NE H; cbn [In] in I; repeat (destruct I as [<-|I]); try destruct I;
  try (exfalso; apply NE; reflexivity); cbn [mt_handler] in H; unfold field in H;
  match type of H with context [match ?g ?v with _ => _ end] => destruct (g v); [|discriminate] end; injection H as <-; reflexivity.
Ltac tag_in := repeat (first [left; reflexivity|right]).

Lemma once_of_optional {T} l k (P : json -> T -> Prop) d x : optional l k P d x -> once l k.
Proof. intros [(v & H & _)|[H _]]; [right; exists v; exact H|left; exact H]. Qed.
Lemma once_of_mandatory {T} l k (P : json -> T -> Prop) x : mandatory l k P x -> once l k.
Proof. intros (v & H & _). right. exists v. exact H. Qed.
(** Handlers do not fail on the value that is meant. *)
Lemma field_runs {S T} (get : json -> option T) (put : T -> S -> S) l k (P : json -> T -> Prop) x : (forall v y, get v = Some y <-> P v y) ->
  mandatory l k P x \/ (exists d, optional l k P d x) -> forall v, has l k v -> forall s, exists s1, field get put v s = (None, s1).
Proof.
  intros I H v Hv s. assert (X : lacks l k \/ exists v', has l k v' /\ P v' x).
  { destruct H as [(v' & A1 & A2)|[d [(v' & A1 & A2)|[A1 _]]]]; [right; exists v'; split; assumption|right; exists v'; split; assumption|left; exact A1]. }
  destruct X as [X|(v' & A1 & A2)]; [exfalso; eapply has_lacks; eassumption|]. rewrite (has_unique _ _ _ _ Hv A1). apply I in A2. unfold field. rewrite A2. eexists; reflexivity.
Qed.
Lemma in_words {X} (f : X -> string) (l : list X) k : In k (map f l) -> exists x, In x l /\ f x = k.
Proof. intros I. apply in_map_iff in I as (x & E & J). exists x. split; assumption. Qed.

Definition eam_metas : list (meta eam_buf) :=
  [Meta (txt "ipv6 prefix") (field (json2prefix6 U) (fun x s => EamBuf (Some x) (eb_4 s))) true;
   Meta (txt "ipv4 prefix") (field (json2prefix4 U) (fun x s => EamBuf (eb_6 s) (Some x))) true].
Lemma mandatory_value {T} l k (P : json -> T -> Prop) (get : json -> option T) (f0 f : option T) : (forall v y, get v = Some y <-> P v y) ->
  (exists v x, has l k v /\ get v = Some x /\ f = Some x) \/ (lacks l k /\ f = f0) ->
  (exists v, has l k v) -> exists x, f = Some x /\ mandatory l k P x.
Proof.
  intros I [(v & x & A & B & C)|[A _]] [w H].
  - exists x. split; [exact C|]. exists v. split; [exact A|]. apply I. exact B.
  - exfalso. eapply has_lacks; eassumption.
Qed.
Lemma optional_value {T} l k (P : json -> T -> Prop) (get : json -> option T) (d f : T) : (forall v y, get v = Some y <-> P v y) ->
  (exists v x, has l k v /\ get v = Some x /\ f = x) \/ (lacks l k /\ f = d) -> optional l k P d f.
Proof.
  intros I [(v & x & A & B & ->)|[A ->]]; [left; exists v; split; [exact A|apply I; exact B]|right; split; [exact A|reflexivity]].
Qed.
Lemma mandatory_unique {T} l k (P : json -> T -> Prop) (get : json -> option T) x y : (forall v y, get v = Some y <-> P v y) ->
  mandatory l k P x -> mandatory l k P y -> x = y.
Proof.
  intros I (v & A1 & A2) (w & B1 & B2). rewrite (has_unique _ _ _ _ A1 B1) in A2. apply I in A2, B2. congruence.
Qed.
Lemma optional_unique {T} l k (P : json -> T -> Prop) (get : json -> option T) d x y : (forall v y, get v = Some y <-> P v y) ->
  optional l k P d x -> optional l k P d y -> x = y.
Proof.
  intros I [(v & A1 & A2)|[A1 ->]] [(w & B1 & B2)|[B1 ->]].
  - eapply mandatory_unique; [exact I|exists v; split; eassumption|exists w; split; eassumption].
  - exfalso. eapply has_lacks; eassumption.
  - exfalso. eapply has_lacks; eassumption.
  - reflexivity.
Qed.

Lemma prefix6_iff v x : json2prefix6 U v = Some x <-> text (r_prefix6 R) v x.
Proof. apply text_iff. Qed.
Lemma prefix4_iff v x : json2prefix4 U v = Some x <-> text (r_prefix4 R) v x.
Proof. apply text_iff. Qed.
Lemma ports_iff v x : json2port_range v = Some x <-> text (r_ports R) v x.
Proof. apply text_iff. Qed.
Lemma taddr6_iff v x : json2taddr6 U v = Some x <-> text (r_address6 R) v x.
Proof. apply text_iff. Qed.
Lemma taddr4_iff v x : json2taddr4 U v = Some x <-> text (r_address4 R) v x.
Proof. apply text_iff. Qed.

(** The mandatory tags are there. *)
Lemma present {S} (ms : list (meta S)) m k l s s' : names_ok (map mt_name ms) = true -> In m ms -> mt_name m = txt k -> steps ms [] l s s' ->
  (forall m, In m ms -> mt_mandatory m = true -> seen l m = true) -> mt_mandatory m = true -> exists v, has l k v.
Proof.
  intros OKn I E St M Mm. destruct (seen_once ms OKn m k l s s' I E St) as [L|H]; [|exact H].
  apply (lacks_iff m k l E) in L. rewrite (M m I Mm) in L. discriminate.
Qed.
Lemma mandatory_seen {S T} (m : meta S) k l (P : json -> T -> Prop) x : mt_name m = txt k -> mandatory l k P x -> seen l m = true.
Proof.
  intros E (v & H & _). destruct (seen l m) eqn:Sn; [reflexivity|]. exfalso. apply (lacks_iff m k l E) in Sn. eapply has_lacks; eassumption.
Qed.

Lemma eam_steps l s' : steps eam_metas [] l (EamBuf None None) s' -> (forall m, In m eam_metas -> mt_mandatory m = true -> seen l m = true) ->
  exists p6 p4, s' = EamBuf (Some p6) (Some p4) /\ only l ["ipv6 prefix"; "ipv4 prefix"]%string /\
    mandatory l "ipv6 prefix" (text (r_prefix6 R)) p6 /\ mandatory l "ipv4 prefix" (text (r_prefix4 R)) p4.
Proof.
  intros St M. assert (OKn : names_ok (map mt_name eam_metas) = true) by reflexivity.
  pose proof (field_value eam_metas OKn eb_6 Some (json2prefix6 U) _ (nth 0 eam_metas (Meta [] (fun _ s => (None, s)) false)) "ipv6 prefix" l _ _
    ltac:(tag_in) eq_refl eq_refl ltac:(reflexivity) ltac:(keep) St) as F6.
  pose proof (field_value eam_metas OKn eb_4 Some (json2prefix4 U) _ (nth 1 eam_metas (Meta [] (fun _ s => (None, s)) false)) "ipv4 prefix" l _ _
    ltac:(tag_in) eq_refl eq_refl ltac:(reflexivity) ltac:(keep) St) as F4.
  destruct (mandatory_value l _ _ _ _ _ prefix6_iff F6) as (p6 & E6 & M6).
  { eapply (present eam_metas (nth 0 eam_metas (Meta [] (fun _ s => (None, s)) false))); [exact OKn|tag_in|reflexivity|exact St|exact M|reflexivity]. }
  destruct (mandatory_value l _ _ _ _ _ prefix4_iff F4) as (p4 & E4 & M4).
  { eapply (present eam_metas (nth 1 eam_metas (Meta [] (fun _ s => (None, s)) false))); [exact OKn|tag_in|reflexivity|exact St|exact M|reflexivity]. }
  exists p6, p4. split; [destruct s'; cbn in E6, E4; congruence|]. split; [|split; assumption].
  eapply steps_words; [|exact St]. intros m [<-|[<-|[]]]; eexists; (split; [|reflexivity]); cbn [In]; tauto.
Qed.
Lemma eam_iff v x : handle_eam_entry U v = inr x <-> eam_means R v x.
Proof.
  unfold handle_eam_entry. fold eam_metas. assert (OKn : names_ok (map mt_name eam_metas) = true) by reflexivity. split.
  - destruct (handle_object v eam_metas (EamBuf None None)) as [[e|] s'] eqn:H; [discriminate|].
    apply object_iff in H; [|apply names_ok_D; exact OKn|apply names_ok_Q; exact OKn]. destruct H as (l & -> & St & M).
    destruct (eam_steps l s' St M) as (p6 & p4 & -> & O & M6 & M4). cbn beta iota. intros [= <-]. exists l, p6, p4. repeat (split; [first [reflexivity|assumption]|]). exact M4.
  - intros (l & p6 & p4 & -> & -> & O & M6 & M4).
    destruct (steps_run eam_metas OKn ["ipv6 prefix"; "ipv4 prefix"]%string l (EamBuf None None)) as [s' St].
    { intros k [<-|[<-|[]]].
      - exists (nth 0 eam_metas (Meta [] (fun _ s => (None, s)) false)). split; [tag_in|]. split; [reflexivity|]. cbn [nth eam_metas mt_handler].
        eapply field_runs; [exact prefix6_iff|left; exact M6].
      - exists (nth 1 eam_metas (Meta [] (fun _ s => (None, s)) false)). split; [tag_in|]. split; [reflexivity|]. cbn [nth eam_metas mt_handler].
        eapply field_runs; [exact prefix4_iff|left; exact M4]. }
    { intros m [<-|[<-|[]]]; eexists; (split; [|reflexivity]); cbn [In]; tauto. }
    { exact O. }
    { constructor; [eapply once_of_mandatory; exact M6|constructor; [eapply once_of_mandatory; exact M4|constructor]]. }
    assert (M : forall m, In m eam_metas -> mt_mandatory m = true -> seen l m = true).
    { intros m [<-|[<-|[]]] _; eapply mandatory_seen; first [reflexivity|eassumption]. }
    assert (H : handle_object (JObj l) eam_metas (EamBuf None None) = (None, s')).
    { apply object_iff; [apply names_ok_D; exact OKn|apply names_ok_Q; exact OKn|]. exists l. split; [reflexivity|]. split; assumption. }
    rewrite H. destruct (eam_steps l s' St M) as (q6 & q4 & -> & _ & N6 & N4). cbn beta iota.
    rewrite (mandatory_unique _ _ _ _ _ _ prefix6_iff M6 N6), (mandatory_unique _ _ _ _ _ _ prefix4_iff M4 N4). reflexivity.
Qed.
Lemma deny_iff v x : handle_denylist_entry U v = inr x <-> deny_means R v x.
Proof.
  unfold handle_denylist_entry, deny_means. destruct (json2prefix4 U v) as [p|] eqn:E.
  - apply prefix4_iff in E. split; [intros [= <-]; exists p; split; [exact E|reflexivity]|]. intros (q & A & ->). f_equal. f_equal.
    apply prefix4_iff in E, A. congruence.
  - split; [discriminate|]. intros (q & A & ->). apply prefix4_iff in A. congruence.
Qed.
Definition pool4_metas : list (meta pool4_buf) :=
  [Meta (txt "mark") (field json2mark (fun x s => P4Buf x (pb_iter s) (pb_proto s) (pb_prefix s) (pb_ports s))) false;
   Meta (txt "protocol") (field json2proto (fun x s => P4Buf (pb_mark s) (pb_iter s) (Some x) (pb_prefix s) (pb_ports s))) true;
   Meta (txt "prefix") (field (json2prefix4 U) (fun x s => P4Buf (pb_mark s) (pb_iter s) (pb_proto s) (Some x) (pb_ports s))) true;
   Meta (txt "port range") (field json2port_range (fun x s => P4Buf (pb_mark s) (pb_iter s) (pb_proto s) (pb_prefix s) x)) false;
   Meta (txt "max-iterations") (field json2max_iterations (fun x s => P4Buf (pb_mark s) x (pb_proto s) (pb_prefix s) (pb_ports s))) false].
Lemma pool4_steps l s' : steps pool4_metas [] l (P4Buf 0 (0, 0) None None (61001, 65535)) s' -> (forall m, In m pool4_metas -> mt_mandatory m = true -> seen l m = true) ->
  exists mark proto p ports it, s' = P4Buf mark it (Some proto) (Some p) ports /\ only l ["mark"; "protocol"; "prefix"; "port range"; "max-iterations"]%string /\
    optional l "mark" (between 0 (2 ^ 32 - 1) (r_mark R)) 0 mark /\ mandatory l "protocol" (text protocol) proto /\ mandatory l "prefix" (text (r_prefix4 R)) p /\ optional l "port range" (text (r_ports R)) (61001, 65535) ports /\ optional l "max-iterations" (iterations R) (0, 0) it.
Proof.
  intros St M. assert (OKn : names_ok (map mt_name pool4_metas) = true) by reflexivity.
  pose proof (field_value pool4_metas OKn pb_mark (fun x => x) json2mark _ (nth 0 pool4_metas (Meta [] (fun _ s => (None, s)) false)) "mark" l _ _
    ltac:(tag_in) eq_refl eq_refl ltac:(reflexivity) ltac:(keep) St) as F0.
  assert (M0 := optional_value l _ _ _ _ _ mark_iff F0).
  pose proof (field_value pool4_metas OKn pb_proto Some json2proto _ (nth 1 pool4_metas (Meta [] (fun _ s => (None, s)) false)) "protocol" l _ _
    ltac:(tag_in) eq_refl eq_refl ltac:(reflexivity) ltac:(keep) St) as F1.
  destruct (mandatory_value l _ _ _ _ _ proto_iff F1) as (proto & E1 & M1).
  { eapply (present pool4_metas (nth 1 pool4_metas (Meta [] (fun _ s => (None, s)) false))); [exact OKn|tag_in|reflexivity|exact St|exact M|reflexivity]. }
  pose proof (field_value pool4_metas OKn pb_prefix Some (json2prefix4 U) _ (nth 2 pool4_metas (Meta [] (fun _ s => (None, s)) false)) "prefix" l _ _
    ltac:(tag_in) eq_refl eq_refl ltac:(reflexivity) ltac:(keep) St) as F2.
  destruct (mandatory_value l _ _ _ _ _ prefix4_iff F2) as (p & E2 & M2).
  { eapply (present pool4_metas (nth 2 pool4_metas (Meta [] (fun _ s => (None, s)) false))); [exact OKn|tag_in|reflexivity|exact St|exact M|reflexivity]. }
  pose proof (field_value pool4_metas OKn pb_ports (fun x => x) json2port_range _ (nth 3 pool4_metas (Meta [] (fun _ s => (None, s)) false)) "port range" l _ _
    ltac:(tag_in) eq_refl eq_refl ltac:(reflexivity) ltac:(keep) St) as F3.
  assert (M3 := optional_value l _ _ _ _ _ ports_iff F3).
  pose proof (field_value pool4_metas OKn pb_iter (fun x => x) json2max_iterations _ (nth 4 pool4_metas (Meta [] (fun _ s => (None, s)) false)) "max-iterations" l _ _
    ltac:(tag_in) eq_refl eq_refl ltac:(reflexivity) ltac:(keep) St) as F4.
  assert (M4 := optional_value l _ _ _ _ _ iterations_iff F4).
  exists (pb_mark s'), proto, p, (pb_ports s'), (pb_iter s').
  split; [destruct s'; cbn in E1, E2; cbn; congruence|]. split; [|repeat (split; [assumption|]); assumption].
  eapply steps_words; [|exact St]. intros m [<-|[<-|[<-|[<-|[<-|[]]]]]]; eexists; (split; [|reflexivity]); cbn [In]; tauto.
Qed.
Lemma pool4_iff v x : handle_pool4_entry U v = inr x <-> pool4_means R v x.
Proof.
  unfold handle_pool4_entry. fold pool4_metas. assert (OKn : names_ok (map mt_name pool4_metas) = true) by reflexivity. split.
  - destruct (handle_object v pool4_metas (P4Buf 0 (0, 0) None None (61001, 65535))) as [[e|] s'] eqn:H; [discriminate|].
    apply object_iff in H; [|apply names_ok_D; exact OKn|apply names_ok_Q; exact OKn]. destruct H as (l & -> & St & M).
    destruct (pool4_steps l s' St M) as (mark & proto & p & ports & it & -> & O & M0 & M1 & M2 & M3 & M4). cbn beta iota. intros [= <-]. exists l, mark, it, proto, p, ports.
    repeat (split; [first [reflexivity|assumption]|]). assumption.
  - intros (l & mark & it & proto & p & ports & -> & -> & O & M0 & M4 & M1 & M2 & M3).
    destruct (steps_run pool4_metas OKn ["mark"; "protocol"; "prefix"; "port range"; "max-iterations"]%string l (P4Buf 0 (0, 0) None None (61001, 65535))) as [s' St].
    { intros k [<-|[<-|[<-|[<-|[<-|[]]]]]].
      - exists (nth 0 pool4_metas (Meta [] (fun _ s => (None, s)) false)). split; [tag_in|]. split; [reflexivity|]. cbn [nth pool4_metas mt_handler].
        eapply field_runs; [exact mark_iff|right; eexists; exact M0].
      - exists (nth 1 pool4_metas (Meta [] (fun _ s => (None, s)) false)). split; [tag_in|]. split; [reflexivity|]. cbn [nth pool4_metas mt_handler].
        eapply field_runs; [exact proto_iff|left; exact M1].
      - exists (nth 2 pool4_metas (Meta [] (fun _ s => (None, s)) false)). split; [tag_in|]. split; [reflexivity|]. cbn [nth pool4_metas mt_handler].
        eapply field_runs; [exact prefix4_iff|left; exact M2].
      - exists (nth 3 pool4_metas (Meta [] (fun _ s => (None, s)) false)). split; [tag_in|]. split; [reflexivity|]. cbn [nth pool4_metas mt_handler].
        eapply field_runs; [exact ports_iff|right; eexists; exact M3].
      - exists (nth 4 pool4_metas (Meta [] (fun _ s => (None, s)) false)). split; [tag_in|]. split; [reflexivity|]. cbn [nth pool4_metas mt_handler].
        eapply field_runs; [exact iterations_iff|right; eexists; exact M4]. }
    { intros m [<-|[<-|[<-|[<-|[<-|[]]]]]]; eexists; (split; [|reflexivity]); cbn [In]; tauto. }
    { exact O. }
    { constructor; [eapply once_of_optional; exact M0|constructor; [eapply once_of_mandatory; exact M1|constructor; [eapply once_of_mandatory; exact M2|constructor; [eapply once_of_optional; exact M3|constructor; [eapply once_of_optional; exact M4|constructor]]]]]. }
    assert (M : forall m, In m pool4_metas -> mt_mandatory m = true -> seen l m = true).
    { intros m [<-|[<-|[<-|[<-|[<-|[]]]]]] Mm; try discriminate Mm; eapply mandatory_seen; first [reflexivity|eassumption]. }
    assert (H : handle_object (JObj l) pool4_metas (P4Buf 0 (0, 0) None None (61001, 65535)) = (None, s')).
    { apply object_iff; [apply names_ok_D; exact OKn|apply names_ok_Q; exact OKn|]. exists l. split; [reflexivity|]. split; assumption. }
    rewrite H. destruct (pool4_steps l s' St M) as (mark' & proto' & p' & ports' & it' & -> & _ & N0 & N1 & N2 & N3 & N4). cbn beta iota.
    assert (X0 := optional_unique _ _ _ _ _ _ _ mark_iff M0 N0).
    assert (X1 := mandatory_unique _ _ _ _ _ _ proto_iff M1 N1).
    assert (X2 := mandatory_unique _ _ _ _ _ _ prefix4_iff M2 N2).
    assert (X3 := optional_unique _ _ _ _ _ _ _ ports_iff M3 N3).
    assert (X4 := optional_unique _ _ _ _ _ _ _ iterations_iff M4 N4).
    subst. reflexivity.
Qed.
Definition bib_metas : list (meta bib_buf) :=
  [Meta (txt "ipv6 address") (field (json2taddr6 U) (fun x s => BibBuf (Some x) (bb_4 s) (bb_proto s))) true;
   Meta (txt "ipv4 address") (field (json2taddr4 U) (fun x s => BibBuf (bb_6 s) (Some x) (bb_proto s))) true;
   Meta (txt "protocol") (field json2proto (fun x s => BibBuf (bb_6 s) (bb_4 s) (Some x))) true].
Lemma bib_steps l s' : steps bib_metas [] l (BibBuf None None None) s' -> (forall m, In m bib_metas -> mt_mandatory m = true -> seen l m = true) ->
  exists a6 a4 proto, s' = BibBuf (Some a6) (Some a4) (Some proto) /\ only l ["ipv6 address"; "ipv4 address"; "protocol"]%string /\
    mandatory l "ipv6 address" (text (r_address6 R)) a6 /\ mandatory l "ipv4 address" (text (r_address4 R)) a4 /\ mandatory l "protocol" (text protocol) proto.
Proof.
  intros St M. assert (OKn : names_ok (map mt_name bib_metas) = true) by reflexivity.
  pose proof (field_value bib_metas OKn bb_6 Some (json2taddr6 U) _ (nth 0 bib_metas (Meta [] (fun _ s => (None, s)) false)) "ipv6 address" l _ _
    ltac:(tag_in) eq_refl eq_refl ltac:(reflexivity) ltac:(keep) St) as F0.
  destruct (mandatory_value l _ _ _ _ _ taddr6_iff F0) as (a6 & E0 & M0).
  { eapply (present bib_metas (nth 0 bib_metas (Meta [] (fun _ s => (None, s)) false))); [exact OKn|tag_in|reflexivity|exact St|exact M|reflexivity]. }
  pose proof (field_value bib_metas OKn bb_4 Some (json2taddr4 U) _ (nth 1 bib_metas (Meta [] (fun _ s => (None, s)) false)) "ipv4 address" l _ _
    ltac:(tag_in) eq_refl eq_refl ltac:(reflexivity) ltac:(keep) St) as F1.
  destruct (mandatory_value l _ _ _ _ _ taddr4_iff F1) as (a4 & E1 & M1).
  { eapply (present bib_metas (nth 1 bib_metas (Meta [] (fun _ s => (None, s)) false))); [exact OKn|tag_in|reflexivity|exact St|exact M|reflexivity]. }
  pose proof (field_value bib_metas OKn bb_proto Some json2proto _ (nth 2 bib_metas (Meta [] (fun _ s => (None, s)) false)) "protocol" l _ _
    ltac:(tag_in) eq_refl eq_refl ltac:(reflexivity) ltac:(keep) St) as F2.
  destruct (mandatory_value l _ _ _ _ _ proto_iff F2) as (proto & E2 & M2).
  { eapply (present bib_metas (nth 2 bib_metas (Meta [] (fun _ s => (None, s)) false))); [exact OKn|tag_in|reflexivity|exact St|exact M|reflexivity]. }
  exists a6, a4, proto.
  split; [destruct s'; cbn in E0, E1, E2; cbn; congruence|]. split; [|repeat (split; [assumption|]); assumption].
  eapply steps_words; [|exact St]. intros m [<-|[<-|[<-|[]]]]; eexists; (split; [|reflexivity]); cbn [In]; tauto.
Qed.
Lemma bib_iff v x : handle_bib_entry U v = inr x <-> bib_means R v x.
Proof.
  unfold handle_bib_entry. fold bib_metas. assert (OKn : names_ok (map mt_name bib_metas) = true) by reflexivity. split.
  - destruct (handle_object v bib_metas (BibBuf None None None)) as [[e|] s'] eqn:H; [discriminate|].
    apply object_iff in H; [|apply names_ok_D; exact OKn|apply names_ok_Q; exact OKn]. destruct H as (l & -> & St & M).
    destruct (bib_steps l s' St M) as (a6 & a4 & proto & -> & O & M0 & M1 & M2). cbn beta iota. intros [= <-]. exists l, a6, a4, proto.
    repeat (split; [first [reflexivity|assumption]|]). assumption.
  - intros (l & a6 & a4 & proto & -> & -> & O & M0 & M1 & M2).
    destruct (steps_run bib_metas OKn ["ipv6 address"; "ipv4 address"; "protocol"]%string l (BibBuf None None None)) as [s' St].
    { intros k [<-|[<-|[<-|[]]]].
      - exists (nth 0 bib_metas (Meta [] (fun _ s => (None, s)) false)). split; [tag_in|]. split; [reflexivity|]. cbn [nth bib_metas mt_handler].
        eapply field_runs; [exact taddr6_iff|left; exact M0].
      - exists (nth 1 bib_metas (Meta [] (fun _ s => (None, s)) false)). split; [tag_in|]. split; [reflexivity|]. cbn [nth bib_metas mt_handler].
        eapply field_runs; [exact taddr4_iff|left; exact M1].
      - exists (nth 2 bib_metas (Meta [] (fun _ s => (None, s)) false)). split; [tag_in|]. split; [reflexivity|]. cbn [nth bib_metas mt_handler].
        eapply field_runs; [exact proto_iff|left; exact M2]. }
    { intros m [<-|[<-|[<-|[]]]]; eexists; (split; [|reflexivity]); cbn [In]; tauto. }
    { exact O. }
    { constructor; [eapply once_of_mandatory; exact M0|constructor; [eapply once_of_mandatory; exact M1|constructor; [eapply once_of_mandatory; exact M2|constructor]]]. }
    assert (M : forall m, In m bib_metas -> mt_mandatory m = true -> seen l m = true).
    { intros m [<-|[<-|[<-|[]]]] Mm; try discriminate Mm; eapply mandatory_seen; first [reflexivity|eassumption]. }
    assert (H : handle_object (JObj l) bib_metas (BibBuf None None None) = (None, s')).
    { apply object_iff; [apply names_ok_D; exact OKn|apply names_ok_Q; exact OKn|]. exists l. split; [reflexivity|]. split; assumption. }
    rewrite H. destruct (bib_steps l s' St M) as (a6' & a4' & proto' & -> & _ & N0 & N1 & N2). cbn beta iota.
    assert (X0 := mandatory_unique _ _ _ _ _ _ taddr6_iff M0 N0).
    assert (X1 := mandatory_unique _ _ _ _ _ _ taddr4_iff M1 N1).
    assert (X2 := mandatory_unique _ _ _ _ _ _ proto_iff M2 N2).
    subst. reflexivity.
Qed.
End Entries.
