(** Choosing a mask, and finding or preparing the entry and session of a packet. *)
Require Import Verif.Base Verif.Addr_Model Verif.Rtrie_Model Verif.Pool4_Model Verif.Pool4_Spec Verif.Fsm_Model Verif.Bib_Model
  Verif.Rbtree_Model Verif.Rbtree_Properties Verif.Bib_Inv Verif.Bib_Steps Verif.Bib_Fate.
From Coq Require Import Sorting.Sorted.
Local Ltac Zify.zify_post_hook ::= idtac.

(** The masks a domain offers, in order. *)
Definition offers (d : domain) (out : list (Z * Z * bool)) : Prop :=
  enum (S (Z.to_nat (d_count d))) d = Ok out /\ consecutive_ok None out.
Definition taken (t : tb) (m : ta) : Prop := exists i, In i (tree4 t) /\ key4 t i = m.

Lemma belongs_free : forall t k n, belongs (key4 t) k (tree4 t) n -> ~ taken t k.
Proof.
  intros t k n (B1 & B2 & B3) (i & Hi & E). rewrite <- (firstn_skipn n (tree4 t)) in Hi. apply in_app_or in Hi.
  destruct Hi as [Hi|Hi]; [apply B2 in Hi|apply B3 in Hi]; rewrite E in Hi; exact (lt_ta_irr _ Hi).
Qed.

Lemma firstn_S_nth : forall (l : list Z) n i, nth_error l n = Some i -> firstn (S n) l = firstn n l ++ [i].
Proof.
  induction l as [|x l IH]; intros [|n] i H; cbn [nth_error] in H; try discriminate.
  - injection H as ->. reflexivity.
  - cbn [firstn app]. f_equal. apply (IH n i H).
Qed.
Lemma skipn_nth : forall (l : list Z) n i, nth_error l n = Some i -> skipn n l = i :: skipn (S n) l.
Proof.
  induction l as [|x l IH]; intros [|n] i H; cbn [nth_error] in H; try discriminate.
  - injection H as ->. reflexivity.
  - cbn [skipn]. apply (IH n i H).
Qed.
Lemma srt_before : forall key l n i, srt key l -> nth_error l n = Some i ->
  (forall x, In x (firstn n l) -> lt_ta (key x) (key i)) /\ (forall x, In x (skipn (S n) l) -> lt_ta (key i) (key x)).
Proof.
  intros key l n i S Hn. rewrite <- (firstn_skipn n l) in S. rewrite (skipn_nth _ _ _ Hn) in S. apply ss_app in S. destruct S as (_ & _ & H1 & H2).
  rewrite Forall_forall in H1, H2. auto.
Qed.

Lemma try_next_ok : forall D t n i a p, inv D t -> nth_error (tree4 t) n = Some i -> key4 t i = (a, p - 1) ->
  exists o m, try_next t n (a, p) = Ok (o, m) /\ hit (key4 t) (a, p) (tree4 t) (o, m).
Proof.
  intros D t n i a p I Hn Hk. unfold try_next. pose proof (i4 _ _ I) as S4. destruct (srt_before _ _ _ _ S4 Hn) as [H1 H2].
  assert (B : forall x, In x (firstn (S n) (tree4 t)) -> lt_ta (key4 t x) (a, p)).
  { intros x Hx. rewrite (firstn_S_nth _ _ _ Hn) in Hx. apply in_app_or in Hx. destruct Hx as [Hx|[<-|[]]].
    - specialize (H1 _ Hx). rewrite Hk in H1. unfold lt_ta in *. cbn [fst snd] in *. lia.
    - rewrite Hk. unfold lt_ta. cbn [fst snd]. lia. }
  assert (Hlen : (n < length (tree4 t))%nat) by (apply nth_error_Some; congruence).
  destruct (nth_error (tree4 t) (S n)) as [j|] eqn:Ej.
  - assert (Hj : In j (tree4 t)) by (eapply nth_error_In; exact Ej). apply (in4 _ _ I) in Hj. unfold getb. destruct (bibs t j) as [b|] eqn:Eb; [|tauto]. cbn [bind].
    assert (Ekj : key4 t j = b_src4 b) by (unfold key4; rewrite Eb; reflexivity).
    assert (Hlt : lt_ta (a, p - 1) (b_src4 b)) by (rewrite <- Hk, <- Ekj; apply H2; rewrite (skipn_nth _ _ _ Ej); left; reflexivity).
    destruct (ta_eqb (b_src4 b) (a, p)) eqn:E; do 2 eexists; (split; [reflexivity|]); cbn [hit].
    + split; [exact Ej|]. rewrite Ekj. unfold ta_eqb in E. cbn [fst snd] in E. destruct (b_src4 b); cbn [fst snd] in E. f_equal; lia.
    + split; [lia|]. split; [exact B|]. intros x Hx.
      assert (Hj2 : lt_ta (a, p) (key4 t j)).
      { rewrite Ekj. unfold lt_ta, ta_eqb in *. cbn [fst snd] in *. destruct (b_src4 b) as [x1 x2]; cbn [fst snd] in *. lia. }
      rewrite (skipn_nth _ _ _ Ej) in Hx. destruct Hx as [<-|Hx]; [exact Hj2|]. destruct (srt_before _ _ _ _ S4 Ej) as [_ H3]. eapply lt_ta_trans; [exact Hj2|apply H3; exact Hx].
  - do 2 eexists. split; [reflexivity|]. cbn [hit]. apply nth_error_None in Ej. split; [lia|]. split; [exact B|]. rewrite skipn_all2 by exact Ej. intros x [].
Qed.

Lemma mask_loop_ok : forall D t, inv D t -> forall fuel d out prev pn, enum fuel d = Ok out -> consecutive_ok prev out ->
  (match prev with Some k => exists n i, pn = Some n /\ nth_error (tree4 t) n = Some i /\ key4 t i = k | None => pn = None end) ->
  exists r d', mask_loop t d pn fuel = Ok (r, d') /\
  match r with
  | Some (k, n) => belongs (key4 t) k (tree4 t) n /\ exists a b, map fst out = a ++ k :: b /\ forall m, In m a -> taken t m
  | None => forall m, In m (map fst out) -> taken t m
  end.
Proof.
  intros D t I. induction fuel as [|fuel IH]; intros d out prev pn He Hc Hp; [discriminate|]. cbn [enum mask_loop] in *.
  destruct (mask_domain_next d) as [[d' o]| |]; cbn [bind] in *; [|discriminate..]. destruct o as [[[a p] c]|[]].
  2:{ injection He as <-. do 2 eexists. split; [reflexivity|]. intros m []. }
  destruct (enum fuel d') as [l| |] eqn:El; cbn [bind] in He; [|discriminate..]. injection He as <-. cbn [consecutive_ok] in Hc. destruct Hc as [Hc1 Hc2].
  assert (F : exists o n, (if c then match pn with Some n => try_next t n (a, p) | None => UB end else find_bibtree4_slot t (a, p)) = Ok (o, n) /\ hit (key4 t) (a, p) (tree4 t) (o, n)).
  { destruct c; [|apply (find4 _ _ _ I)]. rewrite (proj1 Hc1 eq_refl) in Hp. destruct Hp as (n & i & -> & Hn & Hk). eapply try_next_ok; eassumption. }
  destruct F as (o & n & E & H). rewrite E. cbn [bind]. destruct o as [i|].
  - cbn [hit] in H. destruct H as [H1 H2]. destruct (IH d' l (Some (a, p)) (Some n) El Hc2) as (r & d'' & Er & Hr); [exists n, i; auto|].
    exists r, d''. split; [exact Er|]. cbn [map fst]. assert (T : taken t (a, p)) by (exists i; split; [eapply nth_error_In; exact H1|exact H2]).
    destruct r as [[k m]|].
    + destruct Hr as (B & x & y & Exy & Hx). split; [exact B|]. exists ((a, p) :: x), y. rewrite Exy. split; [reflexivity|]. intros z [<-|Hz]; auto.
    + intros z [<-|Hz]; auto.
  - cbn [hit] in H. do 2 eexists. split; [reflexivity|]. cbv beta iota. split; [exact H|]. cbn [map fst]. exists [], (map fst l). split; [reflexivity|]. intros m [].
Qed.
Lemma mask_ok : forall D t d out, inv D t -> offers d out -> exists r d', find_available_mask t d = Ok (r, d') /\
  match r with
  | Some (k, n) => belongs (key4 t) k (tree4 t) n /\ exists a b, map fst out = a ++ k :: b /\ forall m, In m a -> taken t m
  | None => forall m, In m (map fst out) -> taken t m
  end.
Proof. intros D t d out I [E C]. eapply mask_loop_ok; [exact I|exact E|exact C|reflexivity]. Qed.

(** ** A new session, perhaps with its entry *)
Record added (t t' : tb) (sid : Z) (s : tsess) (b' : tbib) : Prop := Added {
  a_s0 : sess t sid = None;
  a_sess : forall j, sess t' j = if j =? sid then Some s else sess t j;
  a_bibs : forall x, bibs t' x = if x =? s_bib s then Some b' else bibs t x;
  a_in : In sid (b_sess b');
  a_b : match bibs t (s_bib s) with
        | Some b => In (s_bib s) (tree4 t) /\ b_src6 b' = b_src6 b /\ b_src4 b' = b_src4 b /\ b_static b' = b_static b
        | None => b_static b' = false /\ b_sess b' = [sid]
        end;
  a_t4 : forall x, In x (tree4 t') <-> In x (tree4 t) \/ x = s_bib s;
  a_q : queue t' = queue t;
  a_f : fresh t <= fresh t' }.

Lemma dyn_added : forall t t' sid s b', added t t' sid s b' -> dyn t -> dyn t'.
Proof.
  intros t t' sid s b' A H x b Hx Hb Es. rewrite (a_bibs _ _ _ _ _ A) in Hb. apply (a_t4 _ _ _ _ _ A) in Hx.
  destruct (x =? s_bib s) eqn:E.
  - injection Hb as <-. intros C. pose proof (a_in _ _ _ _ _ A) as Ha. rewrite C in Ha. destruct Ha.
  - apply (H x b); auto. destruct Hx as [Hx|Hx]; [exact Hx|lia].
Qed.
Lemma added_live : forall D t t' sid s b', added t t' sid s b' -> ~ In (s_bib s) D -> live D t' sid s.
Proof. intros D t t' sid s b' A H. split; [rewrite (a_sess _ _ _ _ _ A), Z.eqb_refl; reflexivity|exact H]. Qed.

(** Weights when a session is linked. *)
Lemma wl_new : forall D t sid s b n m g, inv D t -> bibs t (s_bib s) = Some b -> ~ In (s_bib s) D -> sess t sid = None -> s_exp s <> T_BAD ->
  let t' := set_list (add_sess t sid s b n) (s_exp s) (insert_at m sid (list_of t (s_exp s))) in
  wl g t' = wl g t + (match s_stored s with Some k => g k | None => 0 end) /\ wd g D t' = wd g D t /\ wq g t' = wq g t.
Proof.
  intros D t sid s b n m g I Hb HD Hs Hk t'.
  assert (Es : sess t' = upd (sess t) sid (Some s)) by (unfold t'; destruct (s_exp s); reflexivity).
  assert (Eb : forall x, x <> s_bib s -> bibs t' x = bibs t x) by (intros x N; unfold t'; destruct (s_exp s); unfold add_sess; cbn [set_list]; simp; apply upd_neq; exact N).
  assert (Ws : forall j, j <> sid -> ws g t' j = ws g t j) by (intros j N; unfold ws; rewrite Es, upd_neq by exact N; reflexivity).
  assert (Nl : forall k, ~ In sid (list_of t k)) by (intros k Hi; apply (ill _ _ I) in Hi; destruct Hi as (x & Hx & _); congruence).
  split; [|split].
  - unfold wl. unfold t' at 2. rewrite linked_set by exact Hk.
    change (linked (add_sess t sid s b n)) with (linked t). assert (El : list_of (add_sess t sid s b n) (s_exp s) = list_of t (s_exp s)) by (destruct (s_exp s); reflexivity).
    rewrite El, insert_sum.
    rewrite (sumz_ext _ (ws g t') (ws g t) (linked t)) by (intros j Hj; apply Ws; intros ->; apply in_linked in Hj; destruct Hj as [k Hj]; exact (Nl k Hj)).
    unfold ws at 3. rewrite Es, upd_eq. lia.
  - unfold wd. apply sumz_ext. intros x Hx. unfold wb. rewrite Eb by (intros ->; tauto). destruct (bibs t x) as [y|] eqn:Hy; [|reflexivity].
    apply sumz_ext. intros j Hj. apply Ws. intros ->. apply (ibs _ _ I _ _ Hy) in Hj. destruct Hj as (z & Hz & _). congruence.
  - unfold wq, t'. destruct (s_exp s); reflexivity.
Qed.

(** A session for an entry of the tables. *)
Lemma new_sess_ok : forall D t sid s b n m, inv D t -> bibs t (s_bib s) = Some b -> ~ In (s_bib s) D -> sess t sid = None -> sid < fresh t ->
  belongs (keys t) (s_dst4 s) (b_sess b) n -> s_exp s <> T_BAD ->
  exists t' b', set_list (add_sess t sid s b n) (s_exp s) (insert_at m sid (list_of t (s_exp s))) = t' /\
  inv D t' /\ added t t' sid s b' /\ fresh t' = fresh t /\ pkts t' = pkts t /\
  (forall g, wl g t' = wl g t + (match s_stored s with Some k => g k | None => 0 end) /\ wd g D t' = wd g D t /\ wq g t' = wq g t) /\
  (forall k, list_of t' k = if same_timer (s_exp s) k then insert_at m sid (list_of t k) else list_of t k).
Proof.
  intros D t sid s b n m I Hb HD Hs Hf B Hk. eexists _, (with_sess b (insert_at n sid (b_sess b))). split; [reflexivity|].
  split; [apply inv_new_sess; assumption|]. split; [|split; [|split; [|split]]].
  - constructor.
    + exact Hs.
    + intros j. destruct (s_exp s); reflexivity.
    + intros x. destruct (s_exp s); reflexivity.
    + simp. apply in_or_app. right. left. reflexivity.
    + rewrite Hb. split; [apply (in4 _ _ I); split; [congruence|exact HD]|]. repeat split.
    + intros x. assert (E : tree4 (set_list (add_sess t sid s b n) (s_exp s) (insert_at m sid (list_of t (s_exp s)))) = tree4 t) by (destruct (s_exp s); reflexivity).
      rewrite E. split; [tauto|]. intros [H|H]; [exact H|]. subst x. apply (in4 _ _ I). split; [congruence|exact HD].
    + destruct (s_exp s); reflexivity.
    + destruct (s_exp s); simp; reflexivity.
  - destruct (s_exp s); reflexivity.
  - destruct (s_exp s); reflexivity.
  - intros g. eapply wl_new; eassumption.
  - intros k. rewrite list_set' by exact Hk. destruct (same_timer (s_exp s) k) eqn:E; [apply same_timer_eq in E; subst k; reflexivity|destruct k; reflexivity].
Qed.

(** A session and its entry. *)
Lemma acct_new_bib : forall D t i b n6 n4, inv D t -> bibs t i = None ->
  (forall g, wl g (commit_bib t i b n6 n4) = wl g t /\ wd g D (commit_bib t i b n6 n4) = wd g D t /\ wq g (commit_bib t i b n6 n4) = wq g t).
Proof.
  intros D t i b n6 n4 I Hi g. split; [reflexivity|]. split; [|reflexivity]. unfold wd. apply sumz_ext. intros x Hx. unfold wb, commit_bib. simp.
  rewrite upd_neq; [reflexivity|]. intros ->. apply (idl _ _ I _ Hx). exact Hi.
Qed.
Lemma belongs_nil : forall key k, belongs key k [] 0.
Proof. intros. split; [apply le_n|]. split; intros x []. Qed.
Lemma new_both_ok : forall D t sid s s6 s4 n6 n4, inv D t -> bibs t (s_bib s) = None -> sess t sid = None -> sid < fresh t -> s_bib s < fresh t ->
  belongs (key6 t) s6 (tree6 t) n6 -> belongs (key4 t) s4 (tree4 t) n4 -> s_exp s <> T_BAD -> forall m,
  exists t' b', set_list (add_sess (commit_bib t (s_bib s) (TB s6 s4 false []) n6 n4) sid s (TB s6 s4 false []) 0) (s_exp s) (insert_at m sid (list_of t (s_exp s))) = t' /\
  inv D t' /\ added t t' sid s b' /\ b_src6 b' = s6 /\ b_src4 b' = s4 /\ fresh t' = fresh t /\ pkts t' = pkts t /\
  (forall g, wl g t' = wl g t + (match s_stored s with Some k => g k | None => 0 end) /\ wd g D t' = wd g D t /\ wq g t' = wq g t) /\
  (forall k, list_of t' k = if same_timer (s_exp s) k then insert_at m sid (list_of t k) else list_of t k).
Proof.
  intros D t sid s s6 s4 n6 n4 I Hb Hs Hf Hfb B6 B4 Hk m. set (nb := TB s6 s4 false []). set (t1 := commit_bib t (s_bib s) nb n6 n4).
  assert (I1 : inv D t1) by (apply inv_new_bib; [exact I|exact Hb|exact Hfb|reflexivity|exact B6|exact B4]).
  assert (Eb : bibs t1 (s_bib s) = Some nb) by (unfold t1, commit_bib; simp; apply upd_eq).
  assert (HD : ~ In (s_bib s) D) by (intros C; apply (idl _ _ I _ C); exact Hb).
  assert (Hl : forall k, list_of t1 k = list_of t k) by (intros []; reflexivity).
  destruct (new_sess_ok D t1 sid s nb 0 m I1 Eb HD Hs Hf (belongs_nil _ _) Hk) as (t' & b' & E & I' & A & Ff & Fp & W & L).
  rewrite Hl in E. exists t', b'. split; [exact E|]. split; [exact I'|].
  assert (Hbb : b' = with_sess nb [sid]).
  { pose proof (a_bibs _ _ _ _ _ A (s_bib s)) as X. rewrite Z.eqb_refl in X. rewrite <- E in X. cut (Some b' = Some (with_sess nb [sid])); [congruence|]. rewrite <- X. destruct (s_exp s); cbn [set_list]; unfold add_sess; simp; rewrite upd_eq; reflexivity. }
  split; [constructor|].
  - exact Hs.
  - apply (a_sess _ _ _ _ _ A).
  - intros x. rewrite (a_bibs _ _ _ _ _ A). destruct (x =? s_bib s) eqn:Ex; [reflexivity|]. unfold t1, commit_bib. simp. apply upd_neq. lia.
  - apply (a_in _ _ _ _ _ A).
  - rewrite Hb. rewrite Hbb. split; reflexivity.
  - intros x. rewrite (a_t4 _ _ _ _ _ A). unfold t1, commit_bib. simp. rewrite insert_in. tauto.
  - rewrite (a_q _ _ _ _ _ A). reflexivity.
  - pose proof (a_f _ _ _ _ _ A) as X. exact X.
  - rewrite Hbb. split; [reflexivity|]. split; [reflexivity|]. split; [exact Ff|]. split; [exact Fp|]. split.
    + intros g. destruct (W g) as (W1 & W2 & W3). destruct (acct_new_bib D t (s_bib s) nb n6 n4 I Hb g) as (V1 & V2 & V3). fold t1 in V1, V2, V3. rewrite W1, W2, W3, V1, V2, V3. auto.
    + intros k. rewrite L, Hl. reflexivity.
Qed.

(** ** What finding an entry does before anything is added *)
(** The table with some entries taken out of the trees ([bdl]), or with a stored
    packet dropped; the rest is as it was. *)
Record prep (t t1 : tb) (w : newc) (masks : option domain) (bdl : list Z) (evs : list ev) : Prop := Prep {
  p_inv : inv bdl t1;
  p_acct : acct [] t bdl t1 evs;
  p_bibs : bibs t1 = bibs t;
  p_sess : sess t1 = sess t;
  p_t4 : tree4 t1 = drop_ids bdl (tree4 t);
  p_bdl : bdl = [] \/ exists bid b, bdl = [bid] /\ bibs t bid = Some b /\ b_src6 b = w_src6 w /\ issue216_needed masks b = true;
  p_lists : exists dead, (forall j, In j dead <-> exists s, sess t j = Some s /\ In (s_bib s) bdl) /\ forall k, list_of t1 k = drop_ids dead (list_of t k);
  p_q : (queue t1 = queue t /\ evs = []) \/
        (exists n, In n (queue t) /\ q_dst6 n = w_dst6 w /\ queue t1 = q_rm (queue t) (w_dst6 w) /\ evs = [EvKill (q_skb n)]);
  p_f : fresh t <= fresh t1 }.

Lemma prep_refl : forall t w masks, inv [] t -> prep t t w masks [] [].
Proof.
  intros t w masks I. constructor.
  - exact I.
  - apply acct_refl.
  - reflexivity.
  - reflexivity.
  - rewrite drop_nil. reflexivity.
  - left. reflexivity.
  - exists []. split; [intros j; split; [intros []|intros (s & _ & [])]|]. intros k. rewrite drop_nil. reflexivity.
  - left. split; reflexivity.
  - lia.
Qed.
Lemma dyn_prep : forall t t1 w masks bdl evs, prep t t1 w masks bdl evs -> dyn t -> dyn t1.
Proof.
  intros t t1 w masks bdl evs P H x b Hx Hb. rewrite (p_bibs _ _ _ _ _ _ P) in Hb. rewrite (p_t4 _ _ _ _ _ _ P) in Hx. apply drop_in in Hx. apply (H x b); [apply Hx|exact Hb].
Qed.

(** The masks on offer, if any. *)
Definition masks_ok (masks : option domain) : Prop := match masks with Some d => exists out, offers d out | None => True end.
(** The address chosen for a new entry: the first of the domain's masks that is
    free, or the requested one. *)
Definition chosen (t : tb) (masks : option domain) (w : newc) (k : ta) : Prop :=
  match masks with
  | Some d => forall out, offers d out -> exists a b, map fst out = a ++ k :: b /\ (forall m, In m a -> taken t m) /\ ~ taken t k
  | None => k = w_src4 w /\ ~ taken t k
  end.
Definition exhausted (t : tb) (masks : option domain) (w : newc) : Prop :=
  match masks with
  | Some d => forall out, offers d out -> forall m, In m (map fst out) -> taken t m
  | None => taken t (w_src4 w)
  end.
(** ICMP "ports" are one identifier: the remote side's is the mask's. *)
Definition completed (p : proto) (w : newc) (k : ta) : newc :=
  match p with ICMP => new_dst4 w (fst (w_dst4 w), snd k) | _ => w end.

Lemma offers_fun : forall d o1 o2, offers d o1 -> offers d o2 -> o1 = o2.
Proof. intros d o1 o2 [H1 _] [H2 _]. congruence. Qed.

Lemma find_new_ok : forall D p t masks w ob n6 bdl evs al, inv D t -> masks_ok masks -> exists e f m,
  find_new p t masks w ob n6 bdl evs al = Ok (e, f, m) /\ f_t f = t /\ f_bib f = ob /\ f_sess f = None /\ f_n6 f = n6 /\ f_ns f = 0%nat /\ f_bdl f = bdl /\ f_ev f = evs /\ f_al f = al /\
  match e with
  | OK => belongs (key4 t) (w_src4 (f_new f)) (tree4 t) (f_n4 f) /\ chosen t masks w (w_src4 (f_new f)) /\
          f_new f = match masks with Some _ => completed p (new_src4 w (w_src4 (f_new f))) (w_src4 (f_new f)) | None => w end
  | Err x => exhausted t masks w /\ x = match masks with Some _ => ENOENT | None => EEXIST end
  end.
Proof.
  intros D p t masks w ob n6 bdl evs al I Hm. unfold find_new. destruct masks as [d|].
  - destruct Hm as [out Ho]. destruct (mask_ok D t d out I Ho) as (r & d' & E & Hr). rewrite E. cbn [bind]. destruct r as [[k n]|].
    + eexists OK, _, _. split; [reflexivity|]. destruct Hr as (B & a & b & Eab & Ha).
      assert (Ew : w_src4 (match p with ICMP => new_dst4 (new_src4 w k) (fst (w_dst4 (new_src4 w k)), snd k) | _ => new_src4 w k end) = k) by (destruct p; reflexivity).
      cbn [f_t f_new f_bib f_sess f_n6 f_n4 f_ns f_bdl f_ev f_al]. rewrite Ew. repeat (split; [reflexivity|]). split; [exact B|]. split.
      * intros o' Ho'. rewrite (offers_fun _ _ _ Ho' Ho). exists a, b. split; [exact Eab|]. split; [exact Ha|eapply belongs_free; exact B].
      * destruct p; reflexivity.
    + eexists (Err ENOENT), _, _. split; [reflexivity|]. cbn [f_t f_new f_bib f_sess f_n6 f_n4 f_ns f_bdl f_ev f_al]. repeat (split; [reflexivity|]).
      split; [|reflexivity]. intros o' Ho'. rewrite (offers_fun _ _ _ Ho' Ho). exact Hr.
  - destruct (find4 D t (w_src4 w) I) as (o & n & E & H). rewrite E. cbn [bind]. destruct o as [i|]; cbn [hit] in H.
    + eexists (Err EEXIST), _, _. split; [reflexivity|]. cbn [f_t f_new f_bib f_sess f_n6 f_n4 f_ns f_bdl f_ev f_al]. repeat (split; [reflexivity|]).
      split; [|reflexivity]. destruct H as [H1 H2]. exists i. split; [eapply nth_error_In; exact H1|exact H2].
    + eexists OK, _, _. split; [reflexivity|]. cbn [f_t f_new f_bib f_sess f_n6 f_n4 f_ns f_bdl f_ev f_al]. repeat (split; [reflexivity|]).
      split; [exact H|]. split; [split; [reflexivity|eapply belongs_free; exact H]|reflexivity].
Qed.

(** The stored packets' queue. *)
Lemma q_find_ok : forall q k n, q_find q k = Some n -> In n q /\ q_dst6 n = k.
Proof.
  intros q k n H. unfold q_find in H. apply find_some in H. destruct H as [H1 H2]. split; [exact H1|]. unfold ta_eqb in H2. destruct (q_dst6 n), k; cbn [fst snd] in H2. f_equal; lia.
Qed.
Lemma ta_eqb_eq : forall a b, ta_eqb a b = true <-> a = b.
Proof. intros [a1 a2] [b1 b2]. unfold ta_eqb. cbn [fst snd]. split; intros H; [f_equal; lia|injection H as -> ->; lia]. Qed.
Lemma q_rm_sum : forall g q n, NoDup (map q_dst6 q) -> In n q -> sumz (fun x => g (q_skb x)) q = sumz (fun x => g (q_skb x)) (q_rm q (q_dst6 n)) + g (q_skb n).
Proof.
  intros g. induction q as [|x q IH]; intros n Hn Hi; [destruct Hi|]. cbn [map] in Hn. apply NoDup_cons_iff in Hn. destruct Hn as [Hn1 Hn2].
  unfold q_rm. cbn [filter sumz]. fold (q_rm q (q_dst6 n)). destruct Hi as [->|Hi].
  - rewrite (proj2 (ta_eqb_eq _ _) eq_refl). cbn [negb]. assert (E : q_rm q (q_dst6 n) = q).
    { unfold q_rm. clear IH Hn2. induction q as [|y q IH]; [reflexivity|]. cbn [filter map] in *. destruct (ta_eqb (q_dst6 y) (q_dst6 n)) eqn:E.
      - apply ta_eqb_eq in E. exfalso. apply Hn1. left. exact E.
      - cbn [negb]. f_equal. apply IH. intros C. apply Hn1. right. exact C. }
    rewrite E. lia.
  - destruct (ta_eqb (q_dst6 x) (q_dst6 n)) eqn:E.
    + apply ta_eqb_eq in E. exfalso. apply Hn1. rewrite E. apply in_map. exact Hi.
    + cbn [negb sumz]. rewrite (IH n Hn2 Hi). lia.
Qed.
Lemma filter_nodup_map : forall (f : pnode -> bool) q, NoDup (map q_dst6 q) -> NoDup (map q_dst6 (filter f q)).
Proof.
  intros f. induction q as [|x q IH]; intros H; [exact H|]. cbn [map] in H. apply NoDup_cons_iff in H. destruct H as [H1 H2]. cbn [filter].
  destruct (f x); [|apply IH; exact H2]. cbn [map]. constructor; [|apply IH; exact H2]. intros C. apply H1. apply in_map_iff in C. destruct C as (y & E & Hy).
  apply filter_In in Hy. apply in_map_iff. exists y. split; [exact E|apply Hy].
Qed.

Lemma take_queued : forall t w masks n f, inv [] t -> In n (queue t) -> q_dst6 n = w_dst6 w -> fresh t <= f ->
  prep t (set_fresh (set_pkts (set_queue t (q_rm (queue t) (w_dst6 w))) (pkts t - 1)) f) w masks [] [EvKill (q_skb n)].
Proof.
  intros t w masks n f I Hn Ed Hf. assert (Q : forall g, sumz (fun x => g (q_skb x)) (queue t) = sumz (fun x => g (q_skb x)) (q_rm (queue t) (w_dst6 w)) + g (q_skb n)).
  { intros g. rewrite <- Ed. apply q_rm_sum; [apply (iqn _ _ I)|exact Hn]. }
  constructor.
  - apply inv_fresh; [|exact Hf]. apply inv_queue; [exact I|]. apply filter_nodup_map. apply (iqn _ _ I).
  - set (t1 := set_fresh _ _). assert (W : forall g, wl g t1 = wl g t) by reflexivity. assert (Wq : forall g, wq g t = wq g t1 + g (q_skb n)) by exact Q.
    split; [intros g; rewrite W, Wq; unfold wd; cbn [sumz we]; lia|]. rewrite W, (Wq one). unfold one at 3. change (pkts t1) with (pkts t - 1). lia.
  - reflexivity.
  - reflexivity.
  - rewrite drop_nil. reflexivity.
  - left. reflexivity.
  - exists []. split; [intros j; split; [intros []|intros (s & _ & [])]|]. intros k. rewrite drop_nil. destruct k; reflexivity.
  - right. exists n. split; [exact Hn|]. split; [exact Ed|]. split; reflexivity.
  - exact Hf.
Qed.

(** A stored SYN becomes an entry and a session ([t0] is the table without the
    packet). *)
Record upgraded_ok (t t1 : tb) (w : newc) (masks : option domain) (now : Z) (bid sid : Z) (evs : list ev) : Prop := Upgraded {
  u_inv : inv [] t1;
  u_acct : acct [] t [] t1 evs;
  u_ex : exists t0 n b', prep t t0 w masks [] evs /\ added t0 t1 sid (TS (q_dst6 n) (q_dst4 n) V4_INIT bid now T_SYN4 None) b' /\ bibs t bid = None /\
    In n (queue t) /\ q_dst6 n = w_dst6 w /\ b_src6 b' = w_src6 w /\ b_src4 b' = q_src4 n /\ ~ taken t (q_src4 n) /\ masks <> None /\
    (forall d, masks = Some d -> mask_domain_matches d (fst (q_src4 n)) (snd (q_src4 n)) = true) /\
    (forall k, list_of t1 k = if same_timer T_SYN4 k then list_of t k ++ [sid] else list_of t k) }.

Definition stale (p : proto) (t t1 : tb) (masks : option domain) (x : Z) : Prop :=
  p = TCP /\ masks <> None /\ queue t <> [] /\ bibs t1 x = None.

Lemma inv_fresh_none : forall D t i, inv D t -> fresh t <= i -> bibs t i = None /\ sess t i = None.
Proof.
  intros D t i I H. split.
  - destruct (bibs t i) eqn:E; [|reflexivity]. pose proof (ifb _ _ I i ltac:(congruence)). lia.
  - destruct (sess t i) eqn:E; [|reflexivity]. pose proof (ifs _ _ I i ltac:(congruence)). lia.
Qed.

Lemma upgrade_ok : forall p t masks w now al n6, inv [] t -> belongs (key6 t) (w_src6 w) (tree6 t) n6 -> exists t1 u evs al',
  upgrade_pktqueue_session p t masks w now al = Ok (t1, u, evs, al') /\
  match u with
  | U_no ob => prep t t1 w masks [] evs /\ tree6 t1 = tree6 t /\ tree4 t1 = tree4 t /\ match ob with None => True | Some x => stale p t t1 masks x end
  | U_ok bid sid => p = TCP /\ upgraded_ok t t1 w masks now bid sid evs
  end.
Proof.
  intros p t masks w now al n6 I B6.
  assert (N : exists t1 u evs al', Ok (t, U_no None, [] : list ev, al) = Ok (t1, u, evs, al') /\ match u with
    | U_no ob => prep t t1 w masks [] evs /\ tree6 t1 = tree6 t /\ tree4 t1 = tree4 t /\ match ob with None => True | Some x => stale p t t1 masks x end
    | U_ok bid sid => p = TCP /\ upgraded_ok t t1 w masks now bid sid evs end).
  { eexists _, _, _, _. split; [reflexivity|]. split; [apply prep_refl; exact I|]. auto. }
  unfold upgrade_pktqueue_session. destruct p; [|exact N..]. unfold pktqueue_find. destruct (q_find (queue t) (w_dst6 w)) as [sos|] eqn:Eq; [|exact N].
  destruct (match masks with Some d => _ | None => _ end) eqn:Em; [exact N|]. clear N. apply q_find_ok in Eq. destruct Eq as [Hq Ed].
  assert (Hqn : queue t <> []) by (destruct (queue t); [destruct Hq|discriminate]).
  destruct masks as [d|].
  2:{ eexists _, _, _, _. split; [reflexivity|]. cbv beta iota. split; [|auto]. exact (take_queued t w None sos (fresh t) I Hq Ed (Z.le_refl _)). }
  pose proof (take_queued t w (Some d) sos (fresh t + 2) I Hq Ed ltac:(lia)) as P. set (t0 := set_fresh _ (fresh t + 2)) in P.
  destruct (alloc_bib_session al) as [a al']. cbv beta iota zeta. simp.
  change (set_fresh (set_pkts (set_queue t (q_rm (queue t) (w_dst6 w))) (pkts t - 1)) (fresh t + 2)) with t0.
  destruct (inv_fresh_none _ _ (fresh t) I ltac:(lia)) as [F1 F2]. destruct (inv_fresh_none _ _ (fresh t + 1) I ltac:(lia)) as [F3 F4].
  assert (St : stale TCP t t0 (Some d) (fresh t)) by (split; [reflexivity|]; split; [discriminate|]; split; [exact Hqn|exact F1]).
  pose proof (p_inv _ _ _ _ _ _ P) as I0. destruct a.
  2-3: eexists _, _, _, _; (split; [reflexivity|]); cbv beta iota; split; [exact P|auto].
  destruct (find6 _ _ (w_src6 w) I0) as (o & m6 & E6 & H6). rewrite E6. cbn [bind]. destruct o as [i|].
  { eexists _, _, _, _. split; [reflexivity|]. cbv beta iota. split; [exact P|auto]. }
  destruct (find4 _ _ (q_src4 sos) I0) as (o & m4 & E4 & H4). rewrite E4. cbn [bind]. destruct o as [i|].
  { eexists _, _, _, _. split; [reflexivity|]. cbv beta iota. split; [exact P|auto]. }
  cbn [hit] in H6, H4. set (s := TS (q_dst6 sos) (q_dst4 sos) V4_INIT (fresh t) now T_SYN4 None).
  destruct (new_both_ok [] t0 (fresh t + 1) s (w_src6 w) (q_src4 sos) m6 m4 I0 F1 F4 ltac:(unfold t0; simp; lia) ltac:(unfold t0, s; simp; lia) H6 H4 ltac:(discriminate) (length (list_of t0 T_SYN4)))
    as (t1 & b' & E & I1 & A & B1 & B2 & _ & Fp & W & L).
  assert (Hc : commit_session (commit_bib t0 (fresh t) (TB (w_src6 w) (q_src4 sos) false []) m6 m4) (fresh t + 1) s (fresh t) 0 =
    Ok (add_sess (commit_bib t0 (fresh t) (TB (w_src6 w) (q_src4 sos) false []) m6 m4) (fresh t + 1) s (TB (w_src6 w) (q_src4 sos) false []) 0)).
  { apply (commit_session_eq _ _ s). unfold commit_bib. simp. apply upd_eq. }
  rewrite Hc. cbn [bind].
  assert (Ea : attach_timer (add_sess (commit_bib t0 (fresh t) (TB (w_src6 w) (q_src4 sos) false []) m6 m4) (fresh t + 1) s (TB (w_src6 w) (q_src4 sos) false []) 0) (fresh t + 1) T_SYN4 = t1).
  { rewrite <- E. unfold attach_timer. change (s_exp s) with T_SYN4. rewrite insert_end. reflexivity. }
  rewrite Ea. eexists _, _, _, _. split; [reflexivity|]. cbv beta iota. split; [reflexivity|].
  assert (A0 : acct [] t0 [] t1 []).
  { split; [intros g; destruct (W g) as (W1 & W2 & W3); unfold s in W1; simp; cbn [sumz]; lia|]. destruct (W one) as (W1 & W2 & W3). unfold s in W1; simp. lia. }
  constructor.
  - exact I1.
  - eapply acct_trans1; [apply (p_acct _ _ _ _ _ _ P)|exact A0].
  - exists t0, sos, b'. split; [exact P|]. split; [exact A|]. split; [exact F1|]. split; [exact Hq|]. split; [exact Ed|]. split; [exact B1|]. split; [exact B2|].
    split; [exact (belongs_free t0 _ _ H4)|]. split; [discriminate|]. split.
    + intros d' Hd. injection Hd as <-. destruct (mask_domain_matches d _ _); [reflexivity|discriminate].
    + intros k. rewrite L. change (s_exp s) with T_SYN4. destruct k; cbn [same_timer list_of]; try reflexivity. unfold t0. simp. apply insert_end.
Qed.

(** ** Outcomes of find_bib_session6 *)
Inductive found (p : proto) (t : tb) (masks : option domain) (w : newc) (now : Z) (f : found6) : rc -> Prop :=
| Fd_old : forall bid b, f_t f = t -> f_bdl f = [] -> f_ev f = [] -> f_bib f = Some bid -> bibs t bid = Some b -> In bid (tree4 t) ->
    b_src6 b = w_src6 w -> issue216_needed masks b = false -> f_new f = completed p w (b_src4 b) ->
    hit (keys t) (w_dst4 (f_new f)) (b_sess b) (f_sess f, f_ns f) -> found p t masks w now f OK
| Fd_up : forall bid sid, p = TCP -> f_bdl f = [] -> f_bib f = Some bid -> f_sess f = Some sid -> f_new f = w -> upgraded_ok t (f_t f) w masks now bid sid (f_ev f) ->
    ~ (exists i, In i (tree4 t) /\ key6 t i = w_src6 w) -> found p t masks w now f OK
| Fd_new : prep t (f_t f) w masks (f_bdl f) (f_ev f) -> f_bib f = None -> f_sess f = None -> f_ns f = 0%nat ->
    belongs (key6 (f_t f)) (w_src6 w) (tree6 (f_t f)) (f_n6 f) -> belongs (key4 (f_t f)) (w_src4 (f_new f)) (tree4 (f_t f)) (f_n4 f) ->
    chosen (f_t f) masks w (w_src4 (f_new f)) -> f_new f = match masks with Some _ => completed p (new_src4 w (w_src4 (f_new f))) (w_src4 (f_new f)) | None => w end ->
    found p t masks w now f OK
| Fd_stale : forall x, prep t (f_t f) w masks [] (f_ev f) -> f_bdl f = [] -> stale p t (f_t f) masks x -> f_bib f = Some x -> f_sess f = None -> found p t masks w now f OK
| Fd_err : forall x, prep t (f_t f) w masks (f_bdl f) (f_ev f) -> exhausted (f_t f) masks w -> x = (match masks with Some _ => ENOENT | None => EEXIST end) ->
    ~ (exists i, In i (tree4 (f_t f)) /\ key6 t i = w_src6 w) -> found p t masks w now f (Err x).

Lemma belongs_free6 : forall D t k n, inv D t -> belongs (key6 t) k (tree6 t) n -> ~ (exists i, In i (tree4 t) /\ key6 t i = k).
Proof.
  intros D t k n I (B1 & B2 & B3) (i & Hi & E). apply (in4 _ _ I) in Hi. apply (in6 _ _ I) in Hi. rewrite <- (firstn_skipn n (tree6 t)) in Hi. apply in_app_or in Hi.
  destruct Hi as [Hi|Hi]; [apply B2 in Hi|apply B3 in Hi]; rewrite E in Hi; exact (lt_ta_irr _ Hi).
Qed.
Lemma remove_drop : forall i l, remove_id i l = drop_ids [i] l.
Proof. intros. rewrite <- drop_cons, drop_nil. reflexivity. Qed.

Lemma detach_prep : forall t bid b w masks, inv [] t -> bibs t bid = Some b -> b_src6 b = w_src6 w -> issue216_needed masks b = true ->
  exists t1, detach_bib t bid = Ok t1 /\ prep t t1 w masks [bid] [] /\ tree6 t1 = remove_id bid (tree6 t).
Proof.
  intros t bid b w masks I Hb E6 Ei. destruct (detach_ok [] t bid b I Hb ltac:(intros [])) as (t1 & E & I1 & A & Fb & Fs & T6 & T4 & L & Fq & Ff).
  exists t1. split; [exact E|]. split; [|exact T6]. constructor; try assumption.
  - rewrite T4. apply remove_drop.
  - right. exists bid, b. auto.
  - exists (b_sess b). split; [|exact L]. intros j. split.
    + intros Hj. apply (ibs _ _ I _ _ Hb) in Hj. destruct Hj as (s & Hs & <-). exists s. split; [exact Hs|left; reflexivity].
    + intros (s & Hs & [Es|[]]). apply (ibs _ _ I _ _ Hb). eauto.
  - left. auto.
  - lia.
Qed.

Lemma find6_ok : forall p t masks w now al, inv [] t -> masks_ok masks -> exists e f m,
  find_bib_session6 p t masks w now al = Ok (e, f, m) /\ found p t masks w now f e.
Proof.
  intros p t masks w now al I Hm. unfold find_bib_session6. destruct (find6 _ _ (w_src6 w) I) as (o & n6 & E6 & H6). rewrite E6. cbn [bind].
  destruct o as [bid|]; cbn [hit] in H6.
  - destruct H6 as [H6 K6]. apply nth_error_In in H6. apply (in6 _ _ I) in H6. unfold getb. destruct (bibs t bid) as [b|] eqn:Hb; [|tauto]. cbn [bind].
    assert (Es : b_src6 b = w_src6 w) by (unfold key6 in K6; rewrite Hb in K6; exact K6).
    destruct (issue216_needed masks b) eqn:Ei; cbn [negb].
    + destruct (detach_prep t bid b w masks I Hb Es Ei) as (t1 & Ed & P & T6). rewrite Ed. cbn [bind]. pose proof (p_inv _ _ _ _ _ _ P) as I1.
      destruct (find6 _ _ (w_src6 w) I1) as (o & m6 & E6' & H6'). rewrite E6'. cbn [bind]. destruct o as [i|]; cbn [hit] in H6'.
      * exfalso. destruct H6' as [X1 X2]. apply nth_error_In in X1. rewrite T6 in X1. apply remove_in in X1. destruct X1 as [X1 X3].
        apply X3. apply (srt_inj _ _ i bid (i6 _ _ I) X1); [apply (in6 _ _ I); split; [congruence|intros []]|].
        unfold key6 in X2. rewrite (p_bibs _ _ _ _ _ _ P) in X2. unfold key6. rewrite Hb, Es. exact X2.
      * destruct (find_new_ok _ p t1 masks w None m6 [bid] [] al I1 Hm) as (e & f & m & E & G1 & G2 & G3 & G4 & G5 & G6 & G7 & G8 & G9).
        exists e, f, m. split; [exact E|]. assert (P' : prep t (f_t f) w masks (f_bdl f) (f_ev f)) by (rewrite G1, G6, G7; exact P).
        destruct e as [|x].
        -- destruct G9 as (B4 & Hc & Hw). apply Fd_new; try assumption; [rewrite G1, G4|rewrite G1|rewrite G1]; assumption.
        -- destruct G9 as (Hx & ->). eapply Fd_err; [exact P'|rewrite G1; exact Hx|reflexivity|]. rewrite G1. unfold key6. rewrite <- (p_bibs _ _ _ _ _ _ P). exact (belongs_free6 _ _ _ _ I1 H6').
    + destruct (finds _ _ bid b (w_dst4 (completed p w (b_src4 b))) I Hb) as (os & ns & a & E & H & _).
      change (match p with ICMP => new_dst4 w (fst (w_dst4 w), snd (b_src4 b)) | _ => w end) with (completed p w (b_src4 b)). cbv zeta. rewrite E. cbn [bind].
      eexists _, _, _. split; [reflexivity|]. eapply Fd_old; try reflexivity; try eassumption. apply (in4 _ _ I). split; [congruence|intros []].
  - destruct (upgrade_ok p t masks w now al n6 I H6) as (t1 & u & evs & al' & E & H). rewrite E. cbn [bind]. destruct u as [bid sid|ob].
    + eexists _, _, _. split; [reflexivity|]. destruct H as [-> H]. eapply Fd_up; try reflexivity; [exact H|exact (belongs_free6 _ _ _ _ I H6)].
    + destruct H as (P & T6 & T4 & Ho). pose proof (p_inv _ _ _ _ _ _ P) as I1.
      destruct (find_new_ok _ p t1 masks w ob n6 [] evs al' I1 Hm) as (e & f & m & E' & G1 & G2 & G3 & G4 & G5 & G6 & G7 & G8 & G9).
      exists e, f, m. split; [exact E'|]. assert (P' : prep t (f_t f) w masks (f_bdl f) (f_ev f)) by (rewrite G1, G6, G7; exact P).
      destruct e as [|x].
      * destruct G9 as (B4 & Hc & Hw). destruct ob as [x|].
        -- eapply Fd_stale; [rewrite <- G6; exact P'|exact G6|rewrite G1; exact Ho|exact G2|exact G3].
        -- assert (B6 : belongs (key6 (f_t f)) (w_src6 w) (tree6 (f_t f)) (f_n6 f)).
           { rewrite G1, G4, T6. unfold key6. rewrite (p_bibs _ _ _ _ _ _ P). exact H6. }
           apply Fd_new; try assumption; rewrite G1; assumption.
      * destruct G9 as (Hx & ->). eapply Fd_err; [exact P'|rewrite G1; exact Hx|reflexivity|]. rewrite G1, T4. exact (belongs_free6 _ _ _ _ I H6).
Qed.
