(** The paged listings of a BIB table ([bib_foreach], [bib_foreach_session]) are
    pages of the table in key order. *)
Require Import Verif.Base Verif.Addr_Model Verif.Rtrie_Model Verif.Pool4_Model Verif.Fsm_Model Verif.Bib_Model
  Verif.Rbtree_Model Verif.Rbtree_Properties Verif.Bib_Inv Verif.KeyPaging.
From Coq Require Import Sorting.Sorted.
Local Ltac Zify.zify_post_hook ::= idtac.

Definition ltb_ta (a b : ta) : bool := (fst a <? fst b) || ((fst a =? fst b) && (snd a <? snd b)).
Lemma ltb_ta_spec : forall a b, ltb_ta a b = true <-> lt_ta a b.
Proof. intros. unfold ltb_ta, lt_ta. lia. Qed.
Definition eqb_ta (a b : ta) : bool := (fst a =? fst b) && (snd a =? snd b).
Lemma eqb_ta_spec : forall a b, eqb_ta a b = true <-> a = b.
Proof. intros [a1 a2] [b1 b2]. unfold eqb_ta. cbn [fst snd]. split; [intros H; f_equal; lia|intros [= -> ->]; lia]. Qed.

(** Pairs of transport addresses, by the first and then by the second. *)
Definition lt_tt (a b : ta * ta) : Prop := lt_ta (fst a) (fst b) \/ fst a = fst b /\ lt_ta (snd a) (snd b).
Definition ltb_tt (a b : ta * ta) : bool := ltb_ta (fst a) (fst b) || (eqb_ta (fst a) (fst b) && ltb_ta (snd a) (snd b)).
Lemma ltb_tt_spec : forall a b, ltb_tt a b = true <-> lt_tt a b.
Proof. intros. unfold ltb_tt, lt_tt. rewrite orb_true_iff, andb_true_iff, !ltb_ta_spec, eqb_ta_spec. reflexivity. Qed.
Lemma lt_tt_trans : forall a b c, lt_tt a b -> lt_tt b c -> lt_tt a c.
Proof.
  intros a b c [H|[E H]] [K|[F K]]; unfold lt_tt.
  - left. eapply lt_ta_trans; eassumption.
  - left. rewrite <- F. exact H.
  - left. rewrite E. exact K.
  - right. split; [congruence|]. eapply lt_ta_trans; eassumption.
Qed.
Lemma lt_tt_irr : forall a, ~ lt_tt a a.
Proof. intros a [H|[_ H]]; exact (lt_ta_irr _ H). Qed.

(** ** What is past an offset *)
Lemma filter_none : forall A (f : A -> bool) l, (forall x, In x l -> f x = false) -> filter f l = [].
Proof. induction l as [|x l IH]; intros H; cbn [filter]; [reflexivity|]. rewrite (H x) by (left; reflexivity). apply IH. intros; apply H; right; assumption. Qed.
Lemma filter_all : forall A (f : A -> bool) l, (forall x, In x l -> f x = true) -> filter f l = l.
Proof. induction l as [|x l IH]; intros H; cbn [filter]; [reflexivity|]. rewrite (H x) by (left; reflexivity). f_equal. apply IH. intros; apply H; right; assumption. Qed.
Lemma nth_split_at : forall (l : list Z) n i, nth_error l n = Some i -> l = firstn n l ++ i :: skipn (S n) l.
Proof.
  induction l as [|x l IH]; intros [|n] i H; cbn [nth_error] in H; try discriminate.
  - injection H as ->. reflexivity.
  - cbn [firstn app skipn]. f_equal. exact (IH _ _ H).
Qed.
Lemma past : forall key k l o n, srt key l -> hit key k l (o, n) ->
  filter (fun i => ltb_ta k (key i)) l = match o with Some _ => skipn (S n) l | None => skipn n l end.
Proof.
  intros key k l [i|] n Hs H; cbn [hit] in H.
  - destruct H as [H E]. rewrite (nth_split_at _ _ _ H) at 1. rewrite (nth_split_at _ _ _ H) in Hs. apply srt_parts in Hs. destruct Hs as (_ & S2 & S3).
    apply StronglySorted_inv in S2. destruct S2 as [_ F]. rewrite Forall_forall in F. rewrite filter_app, filter_none; [cbn [app filter]|].
    + replace (ltb_ta k (key i)) with false; [|symmetry; apply not_true_iff_false; rewrite ltb_ta_spec, E; apply lt_ta_irr].
      apply filter_all. intros x Hx. apply ltb_ta_spec. rewrite <- E. apply F. exact Hx.
    + intros x Hx. apply not_true_iff_false. rewrite ltb_ta_spec. intros C. apply (lt_ta_irr k). rewrite <- E at 2. eapply lt_ta_trans; [exact C|]. apply S3; [exact Hx|left; reflexivity].
  - destruct H as (_ & B2 & B3). rewrite <- (firstn_skipn n l) at 1. rewrite filter_app, filter_none, filter_all; [reflexivity| |].
    + intros x Hx. apply ltb_ta_spec. apply B3. exact Hx.
    + intros x Hx. apply not_true_iff_false. rewrite ltb_ta_spec. intros C. apply (lt_ta_irr k). eapply lt_ta_trans; [exact C|]. apply B2. exact Hx.
Qed.
Lemma filter_map : forall A B (f : B -> bool) (g : A -> B) l, filter f (map g l) = map g (filter (fun x => f (g x)) l).
Proof. induction l as [|x l IH]; cbn [map filter]; [reflexivity|]. destruct (f (g x)); cbn [map]; rewrite IH; reflexivity. Qed.
Lemma ascending_map : forall A B K (key : B -> K) lt (g : A -> B) l, ascending key lt (map g l) <-> StronglySorted (fun x y => lt (key (g x)) (key (g y))) l.
Proof.
  intros. unfold ascending. induction l as [|x l IH]; cbn [map]; [split; constructor|]. split; intros H; inversion H as [|? ? S F]; subst; constructor; try (apply IH; exact S).
  - apply Forall_forall. intros y Hy. rewrite Forall_forall in F. apply (F (g y)). apply in_map. exact Hy.
  - apply Forall_forall. intros y Hy. apply in_map_iff in Hy. destruct Hy as (z & <- & Hz). rewrite Forall_forall in F. apply F. exact Hz.
Qed.

(** ** Entries *)
Definition row := (ta * ta * bool)%type.
Definition row_key (r : row) : ta := snd (fst r).
Definition bib_row (t : tb) (i : Z) : row := match bibs t i with Some b => (b_src6 b, b_src4 b, b_static b) | None => ((0,0), (0,0), false) end.
Definition bib_rows (t : tb) : list row := map (bib_row t) (tree4 t).
Lemma bib_row_key : forall t i, row_key (bib_row t i) = key4 t i.
Proof. intros. unfold row_key, bib_row, key4. destruct (bibs t i); reflexivity. Qed.
Lemma read_bibs_ok : forall t l, (forall i, In i l -> bibs t i <> None) -> read_bibs t l = Ok (map (bib_row t) l).
Proof.
  induction l as [|i l IH]; intros H; cbn [read_bibs map]; [reflexivity|]. assert (Hi := H i (or_introl eq_refl)). unfold getb, bib_row at 1.
  destruct (bibs t i); [|congruence]. cbn [bind]. rewrite IH by (intros; apply H; right; assumption). reflexivity.
Qed.
Lemma bib_rows_ascending : forall t, inv [] t -> ascending row_key lt_ta (bib_rows t).
Proof.
  intros t I. apply ascending_map. pose proof (i4 _ _ I) as S. induction S as [|i l S IH F]; constructor; [exact IH|].
  apply Forall_forall. intros j Hj. rewrite !bib_row_key. rewrite Forall_forall in F. apply F. exact Hj.
Qed.
Lemma bib_rows_in : forall t, inv [] t -> forall r, In r (bib_rows t) <-> exists i b, bibs t i = Some b /\ r = (b_src6 b, b_src4 b, b_static b).
Proof.
  intros t I r. unfold bib_rows. rewrite in_map_iff. split.
  - intros (i & <- & Hi). apply (in4 _ _ I) in Hi. destruct Hi as [Hi _]. unfold bib_row. destruct (bibs t i) as [b|] eqn:E; [|congruence]. exists i, b. auto.
  - intros (i & b & Hb & ->). exists i. unfold bib_row. rewrite Hb. split; [reflexivity|]. apply (in4 _ _ I). split; [congruence|intros []].
Qed.
Theorem bib_foreach_page : forall t off cap, inv [] t -> bib_foreach t off cap = Ok (key_page row_key ltb_ta (bib_rows t) off cap).
Proof.
  intros t off cap I. unfold bib_foreach, find_starting_point, key_page.
  assert (Hb : forall i, In i (tree4 t) -> bibs t i <> None) by (intros i Hi; apply (in4 _ _ I) in Hi; apply Hi).
  destruct off as [k|].
  - destruct (find4 [] t k I) as (o & n & E & H). rewrite E. cbn [bind].
    pose proof (past (key4 t) k (tree4 t) o n (i4 _ _ I) H) as P.
    assert (Q : filter (beyond row_key ltb_ta (Some k)) (bib_rows t) = map (bib_row t) (match o with Some _ => skipn (S n) (tree4 t) | None => skipn n (tree4 t) end)).
    { rewrite <- P. unfold bib_rows. rewrite filter_map. f_equal. apply filter_ext. intros i. cbn [beyond]. rewrite bib_row_key. reflexivity. }
    rewrite Q.
    assert (R : forall m, read_bibs t (skipn m (tree4 t)) = Ok (map (bib_row t) (skipn m (tree4 t)))).
    { intros m. apply read_bibs_ok. intros i Hi. apply Hb. rewrite <- (firstn_skipn m (tree4 t)). apply in_or_app. right. exact Hi. }
    destruct o; rewrite R; reflexivity.
  - cbn [bind]. rewrite read_bibs_ok by exact Hb. cbn [bind]. rewrite filter_all by reflexivity. reflexivity.
Qed.

(** ** Sessions *)
Definition sess_of (t : tb) (i : Z) : list Z := match bibs t i with Some b => b_sess b | None => [] end.
Definition sess_ids (t : tb) : list Z := flat_map (sess_of t) (tree4 t).
Definition sess_row (c : cfg) (p : proto) (t : tb) (j : Z) : sentry :=
  match sess t j with
  | Some s => match tstose c p t s with Ok e => e | _ => SE (0,0) (0,0) (0,0) (0,0) 0 T_BAD 0 0 false end
  | None => SE (0,0) (0,0) (0,0) (0,0) 0 T_BAD 0 0 false
  end.
Definition sess_rows c p t := map (sess_row c p t) (sess_ids t).
Definition sess_key (e : sentry) : ta * ta := (e_src4 e, e_dst4 e).
Definition skey (t : tb) (j : Z) : ta * ta := match sess t j with Some s => (key4 t (s_bib s), s_dst4 s) | None => ((0,0),(0,0)) end.

Lemma sess_row_ok : forall c p t j s, inv [] t -> sess t j = Some s -> exists b, bibs t (s_bib s) = Some b /\ tstose c p t s = Ok (sess_row c p t j) /\
  sess_row c p t j = SE (b_src6 b) (s_dst6 s) (b_src4 b) (s_dst4 s) (s_state s) (s_exp s) (s_time s) (get_timeout c p (s_exp s)) (match s_stored s with Some _ => true | None => false end).
Proof.
  intros c p t j s I H. pose proof (isb _ _ I _ _ H) as B. destruct (bibs t (s_bib s)) as [b|] eqn:E; [|congruence]. exists b. split; [reflexivity|].
  unfold sess_row. rewrite H. unfold tstose, getb. rewrite E. cbn [bind]. auto.
Qed.
Lemma sess_row_key : forall c p t j, inv [] t -> sess_key (sess_row c p t j) = skey t j.
Proof.
  intros c p t j I. unfold skey. destruct (sess t j) as [s|] eqn:E.
  - destruct (sess_row_ok c p t j s I E) as (b & Hb & _ & ->). unfold sess_key, key4. rewrite Hb. reflexivity.
  - unfold sess_row. rewrite E. reflexivity.
Qed.
Lemma sess_of_in : forall t i j, inv [] t -> In j (sess_of t i) <-> exists s, sess t j = Some s /\ s_bib s = i.
Proof.
  intros t i j I. unfold sess_of. destruct (bibs t i) as [b|] eqn:E; [apply (ibs _ _ I _ _ E)|]. split; [intros []|].
  intros (s & Hs & <-). destruct (isb _ _ I _ _ Hs E).
Qed.
Lemma sess_of_key : forall t i j, inv [] t -> In j (sess_of t i) -> skey t j = (key4 t i, keys t j).
Proof. intros t i j I H. apply sess_of_in in H; [|exact I]. destruct H as (s & Hs & <-). unfold skey, keys. rewrite Hs. reflexivity. Qed.
Lemma sess_ids_in : forall t j, inv [] t -> In j (sess_ids t) <-> sess t j <> None.
Proof.
  intros t j I. unfold sess_ids. rewrite in_flat_map. split.
  - intros (i & _ & Hj). apply sess_of_in in Hj; [|exact I]. destruct Hj as (s & -> & _). discriminate.
  - intros H. destruct (sess t j) as [s|] eqn:E; [|congruence]. exists (s_bib s). split.
    + apply (in4 _ _ I). split; [exact (isb _ _ I _ _ E)|intros []].
    + apply sess_of_in; [exact I|]. exists s. auto.
Qed.
Lemma sess_of_srt : forall t i, inv [] t -> srt (keys t) (sess_of t i).
Proof. intros t i I. unfold sess_of. destruct (bibs t i) as [b|] eqn:E; [exact (isr _ _ I _ _ E)|constructor]. Qed.
Lemma ss_app_intro : forall A (R : A -> A -> Prop) l r, StronglySorted R l -> StronglySorted R r -> (forall x y, In x l -> In y r -> R x y) -> StronglySorted R (l ++ r).
Proof.
  intros A R l r H Hr X. induction H as [|x l S IH F]; cbn [app]; [exact Hr|]. constructor; [apply IH; intros; apply X; [right; assumption|assumption]|].
  apply Forall_app. split; [exact F|]. apply Forall_forall. intros y Hy. apply X; [left; reflexivity|exact Hy].
Qed.
Lemma sess_ids_srt : forall t l, inv [] t -> srt (key4 t) l -> StronglySorted (fun i j => lt_tt (skey t i) (skey t j)) (flat_map (sess_of t) l).
Proof.
  intros t l I H. induction H as [|i l S IH F]; cbn [flat_map]; [constructor|]. apply ss_app_intro; [|exact IH|].
  - pose proof (sess_of_srt t i I) as S1. assert (K : forall j, In j (sess_of t i) -> skey t j = (key4 t i, keys t j)) by (intros; apply sess_of_key; assumption).
    induction S1 as [|j r S1 IH1 F1]; constructor; [apply IH1; intros; apply K; right; assumption|]. apply Forall_forall. intros y Hy.
    rewrite !K by (auto with datatypes). right. cbn [fst snd]. split; [reflexivity|]. rewrite Forall_forall in F1. apply F1. exact Hy.
  - intros x y Hx Hy. apply in_flat_map in Hy. destruct Hy as (i' & Hi' & Hy). rewrite (sess_of_key t i x I Hx), (sess_of_key t i' y I Hy). left. cbn [fst]. rewrite Forall_forall in F. apply F. exact Hi'.
Qed.
Lemma sess_rows_ascending : forall c p t, inv [] t -> ascending sess_key lt_tt (sess_rows c p t).
Proof.
  intros c p t I. apply ascending_map. pose proof (sess_ids_srt t (tree4 t) I (i4 _ _ I)) as S. fold (sess_ids t) in S. induction S as [|i l S IH F]; constructor; [exact IH|].
  apply Forall_forall. intros j Hj. rewrite !sess_row_key by exact I. rewrite Forall_forall in F. apply F. exact Hj.
Qed.
Lemma all_sess_ok : forall t l, (forall i, In i l -> bibs t i <> None) -> all_sess t l = Ok (flat_map (sess_of t) l).
Proof.
  induction l as [|i l IH]; intros H; cbn [all_sess flat_map]; [reflexivity|]. assert (Hi := H i (or_introl eq_refl)). unfold getb, sess_of at 1.
  destruct (bibs t i); [|congruence]. cbn [bind]. rewrite IH by (intros; apply H; right; assumption). reflexivity.
Qed.
Lemma read_sess_ok : forall c p t l, inv [] t -> (forall j, In j l -> sess t j <> None) -> read_sess c p t l = Ok (map (sess_row c p t) l).
Proof.
  intros c p t l I. induction l as [|j l IH]; intros H; cbn [read_sess map]; [reflexivity|]. assert (Hj := H j (or_introl eq_refl)). unfold gets.
  destruct (sess t j) as [s|] eqn:E; [|congruence]. cbn [bind]. destruct (sess_row_ok c p t j s I E) as (b & _ & R & _). rewrite R. cbn [bind].
  rewrite IH by (intros; apply H; right; assumption). reflexivity.
Qed.
Lemma flat_map_app' : forall A B (f : A -> list B) l r, flat_map f (l ++ r) = flat_map f l ++ flat_map f r.
Proof. induction l as [|x l IH]; intros r; cbn [app flat_map]; [reflexivity|]. rewrite IH, app_assoc. reflexivity. Qed.
Lemma skip_in : forall A n (l : list A) x, In x (skipn n l) -> In x l.
Proof. intros A n l x H. rewrite <- (firstn_skipn n l). apply in_or_app. right. exact H. Qed.
Lemma first_in : forall A n (l : list A) x, In x (firstn n l) -> In x l.
Proof. intros A n l x H. rewrite <- (firstn_skipn n l). apply in_or_app. left. exact H. Qed.

Lemma find_session_offset_ok : forall t a d, inv [] t ->
  find_session_offset t a d false = Ok (filter (fun j => ltb_tt (a, d) (skey t j)) (sess_ids t)).
Proof.
  intros t a d I. unfold find_session_offset. destruct (find4 [] t a I) as (o & n & E & H). rewrite E. cbn [bind].
  assert (Hb : forall i, In i (tree4 t) -> bibs t i <> None) by (intros i Hi; apply (in4 _ _ I) in Hi; apply Hi).
  assert (Lo : forall l, (forall i, In i l -> lt_ta (key4 t i) a) -> filter (fun j => ltb_tt (a, d) (skey t j)) (flat_map (sess_of t) l) = []).
  { intros l Hl. apply filter_none. intros j Hj. apply in_flat_map in Hj. destruct Hj as (i & Hi & Hj). rewrite (sess_of_key t i j I Hj).
    apply not_true_iff_false. rewrite ltb_tt_spec. intros [C|[C _]]; cbn [fst snd] in C; apply (lt_ta_irr a).
    - eapply lt_ta_trans; [exact C|apply Hl; exact Hi].
    - rewrite C at 1. apply Hl. exact Hi. }
  assert (Hi : forall l, (forall i, In i l -> lt_ta a (key4 t i)) -> filter (fun j => ltb_tt (a, d) (skey t j)) (flat_map (sess_of t) l) = flat_map (sess_of t) l).
  { intros l Hl. apply filter_all. intros j Hj. apply in_flat_map in Hj. destruct Hj as (i & Hi & Hj). rewrite (sess_of_key t i j I Hj). apply ltb_tt_spec. left. cbn [fst]. apply Hl. exact Hi. }
  destruct o as [bid|]; cbn [hit] in H.
  - destruct H as [H Ek]. pose proof (nth_split_at _ _ _ H) as Sp. pose proof (i4 _ _ I) as Hs. rewrite Sp in Hs. apply srt_parts in Hs. destruct Hs as (_ & S2 & S3).
    apply StronglySorted_inv in S2. destruct S2 as [_ F]. rewrite Forall_forall in F.
    assert (Hbid : In bid (tree4 t)) by (eapply nth_error_In; exact H). specialize (Hb bid Hbid) as Hbb. unfold getb. destruct (bibs t bid) as [b|] eqn:Eb; [|congruence]. cbn [bind].
    assert (Es : sess_of t bid = b_sess b) by (unfold sess_of; rewrite Eb; reflexivity).
    assert (Hse : forall j, In j (b_sess b) -> sess t j <> None) by (intros j Hj; rewrite <- Es in Hj; apply sess_of_in in Hj; [destruct Hj as (s & -> & _); discriminate|exact I]).
    destruct (search_sess_ok t d (b_sess b) 0 (isr _ _ I _ _ Eb) Hse) as (o & m & E1 & H1). rewrite E1. cbn [bind Nat.add].
    rewrite all_sess_ok by (intros i Hi'; apply Hb; eapply skip_in; exact Hi'). cbn [bind].
    unfold sess_ids. rewrite Sp at 2. rewrite flat_map_app', filter_app, Lo by (intros i Hi'; rewrite <- Ek; apply S3; [exact Hi'|left; reflexivity]).
    cbn [app flat_map]. rewrite filter_app, Hi by (intros i Hi'; rewrite <- Ek; apply F; exact Hi'). f_equal. f_equal.
    rewrite Es. transitivity (filter (fun j => ltb_ta d (keys t j)) (b_sess b)); [rewrite (past _ _ _ _ _ (isr _ _ I _ _ Eb) H1); destruct o; reflexivity|].
    rewrite <- Es. clear - I Ek. assert (K : forall j, In j (sess_of t bid) -> skey t j = (key4 t bid, keys t j)) by (intros; apply sess_of_key; assumption).
    induction (sess_of t bid) as [|j r IHr]; [reflexivity|]. cbn [filter]. rewrite (K j) by (left; reflexivity). rewrite IHr by (intros; apply K; right; assumption). rewrite Ek.
    unfold ltb_tt. cbn [fst snd]. replace (ltb_ta a a) with false by (unfold ltb_ta; lia). replace (eqb_ta a a) with true by (unfold eqb_ta; lia). reflexivity.
  - destruct H as (_ & B2 & B3). rewrite all_sess_ok by (intros i Hi'; apply Hb; eapply skip_in; exact Hi'). unfold sess_ids. rewrite <- (firstn_skipn n (tree4 t)) at 2.
    rewrite flat_map_app', filter_app, Lo, Hi by assumption. reflexivity.
Qed.
Theorem bib_foreach_session_page : forall c p t off cap, inv [] t ->
  bib_foreach_session c p t off false cap = Ok (key_page sess_key ltb_tt (sess_rows c p t) off cap).
Proof.
  intros c p t off cap I. unfold bib_foreach_session, key_page.
  assert (E : match off with Some (s, d) => find_session_offset t s d false | None => all_sess t (tree4 t) end = Ok (filter (fun j => match off with Some k => ltb_tt k (skey t j) | None => true end) (sess_ids t))).
  { destruct off as [[s d]|]; [apply find_session_offset_ok; exact I|]. rewrite filter_all by reflexivity. apply all_sess_ok. intros i Hi. apply (in4 _ _ I) in Hi. apply Hi. }
  rewrite E. cbn [bind]. rewrite read_sess_ok; [|exact I|intros j Hj; apply filter_In in Hj; apply (sess_ids_in t j I); apply Hj]. cbn [bind].
  assert (Q : filter (beyond sess_key ltb_tt off) (sess_rows c p t) = map (sess_row c p t) (filter (fun j => match off with Some k => ltb_tt k (skey t j) | None => true end) (sess_ids t))).
  { unfold sess_rows. rewrite filter_map. f_equal. apply filter_ext. intros j. destruct off; cbn [beyond]; [rewrite sess_row_key by exact I|]; reflexivity. }
  rewrite Q. reflexivity.
Qed.
Lemma sess_rows_in : forall c p t, inv [] t -> forall e, In e (sess_rows c p t) <-> exists j s b, sess t j = Some s /\ bibs t (s_bib s) = Some b /\
  e = SE (b_src6 b) (s_dst6 s) (b_src4 b) (s_dst4 s) (s_state s) (s_exp s) (s_time s) (get_timeout c p (s_exp s)) (match s_stored s with Some _ => true | None => false end).
Proof.
  intros c p t I e. unfold sess_rows. rewrite in_map_iff. split.
  - intros (j & <- & Hj). apply (sess_ids_in t j I) in Hj. destruct (sess t j) as [s|] eqn:E; [|congruence]. destruct (sess_row_ok c p t j s I E) as (b & Hb & _ & R). exists j, s, b. auto.
  - intros (j & s & b & Hs & Hb & ->). exists j. destruct (sess_row_ok c p t j s I Hs) as (b' & Hb' & _ & R). split; [|apply (sess_ids_in t j I); congruence]. rewrite R. congruence.
Qed.
