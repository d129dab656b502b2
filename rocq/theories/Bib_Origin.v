(** Where the addresses of a mapping come from: through every function of the
    tables, and so through every history. *)
Require Import Verif.Base Verif.Addr_Model Verif.Rtrie_Model Verif.Pool4_Model Verif.Pool4_Spec Verif.Fsm_Model Verif.Bib_Model Verif.Bib_Find Verif.Bib_Spec.
Local Ltac Zify.zify_post_hook ::= idtac.

Lemma bind_ok : forall A B (m : res A) (f : A -> res B) y, bind m f = Ok y -> exists x, m = Ok x /\ f x = Ok y.
Proof. intros A B [x| |] f y H; [exists x; auto|discriminate|discriminate]. Qed.
Local Ltac ub H x E := apply bind_ok in H; destruct H as (x & E & H).

Section Origin.
Context (T6 T4 : ta -> Prop).

(** The addresses an operation comes with satisfy [T6] and [T4]. *)
Definition gives (o : op) : Prop :=
  match o with
  | OAdd6 d s6 _ _ _ _ | OTcp6 d s6 _ _ _ _ _ => T6 s6 /\ exists masks, offers d masks /\ forall a, In a (map fst masks) -> T4 a
  | OTcp4 s4 _ _ _ _ _ _ => T4 s4
  | OSync e _ _ => T6 (e_src6 e) /\ T4 (e_src4 e)
  | OStatic s6 s4 _ => T6 s6 /\ T4 s4
  | _ => True
  end.

Definition good (t : tb) : Prop :=
  (forall i b, bibs t i = Some b -> T6 (b_src6 b) /\ T4 (b_src4 b)) /\ (forall n, In n (queue t) -> T4 (q_src4 n)).

Lemma good_eq : forall t t', bibs t' = bibs t -> queue t' = queue t -> good t -> good t'.
Proof. intros t t' E1 E2 [A B]. split; [rewrite E1; exact A|rewrite E2; exact B]. Qed.
Lemma good_incl : forall t t', bibs t' = bibs t -> incl (queue t') (queue t) -> good t -> good t'.
Proof. intros t t' E1 E2 [A B]. split; [rewrite E1; exact A|]. intros n H. apply B, E2, H. Qed.
Lemma good_put : forall t i b, T6 (b_src6 b) -> T4 (b_src4 b) -> good t -> good (put_bib t i b).
Proof. intros t i b H6 H4 [A B]. split; [|exact B]. intros j c. cbn. unfold upd. destruct (j =? i); [injection 1 as <-; auto|apply A]. Qed.
Lemma good_free : forall t i t', free_bib t i = Ok t' -> good t -> good t'.
Proof.
  intros t i t' H [A B]. unfold free_bib in H. destruct (bibs t i); [|discriminate]. injection H as <-. split; [|exact B].
  intros j c. cbn. unfold upd. destruct (j =? i); [discriminate|apply A].
Qed.
Lemma good_get : forall t i b, getb t i = Ok b -> good t -> T6 (b_src6 b) /\ T4 (b_src4 b).
Proof. intros t i b H [A _]. unfold getb in H. destruct (bibs t i) eqn:E; [|discriminate]. injection H as <-. exact (A _ _ E). Qed.
Lemma good_free_session : forall t i t', free_session t i = Ok t' -> good t -> good t'.
Proof. intros t i t' H. unfold free_session in H. destruct (sess t i); [|discriminate]. injection H as <-. apply good_eq; reflexivity. Qed.
Lemma good_set_list : forall t k l, good t -> good (set_list t k l).
Proof. intros t k l. destruct k; apply good_eq; reflexivity. Qed.
Lemma good_attach : forall t i k, good t -> good (attach_timer t i k).
Proof. intros t i k. apply good_set_list. Qed.

Lemma good_kill : forall t i t' evs, kill_stored_pkt t i = Ok (t', evs) -> good t -> good t'.
Proof. intros t i t' evs H. unfold kill_stored_pkt in H. ub H s E. destruct (s_stored s); injection H as <- _; apply good_eq; reflexivity. Qed.
Lemma good_probe : forall t i pr e al t' evs al', handle_probe t i pr e al = Ok (t', evs, al') -> good t -> good t'.
Proof.
  intros t i pr e al t' evs al' H. unfold handle_probe in H. destruct (if pr then draw_alloc al else (false, al)) as [a al1]. destruct a.
  - ub H s E. destruct (s_stored s); injection H as <- _ _; apply good_eq; reflexivity.
  - ub H r E. destruct r as [t1 e1]. injection H as <- _ _. exact (good_kill _ _ _ _ E).
Qed.
Lemma good_rm : forall t i pr e al t' evs al', rm t i pr e al = Ok (t', evs, al') -> good t -> good t'.
Proof.
  intros t i pr e al t' evs al' H G. unfold rm in H. ub H s E. ub H r E1. destruct r as [[t1 e1] al1].
  assert (G1 : good t1) by (destruct (s_stored s); [exact (good_probe _ _ _ _ _ _ _ _ E1 G)|injection E1 as <- _ _; exact G]).
  ub H b Eb. ub H l El. ub H t2 E2. destruct (good_get _ _ _ Eb G1) as [B6 B4].
  assert (G2 : good t2). { apply (good_free_session _ _ _ E2). eapply (good_eq (put_bib t1 (s_bib s) (with_sess b l))); try reflexivity. apply good_put; assumption. }
  destruct (negb (b_static (with_sess b l)) && match l with [] => true | _ => false end).
  - ub H a6 E6. ub H a4 E4. ub H t3 E3. injection H as <- _ _. eapply (good_eq t3); try reflexivity. apply (good_free _ _ _ E3). revert G2. apply good_eq; reflexivity.
  - injection H as <- _ _. revert G2. apply good_eq; reflexivity.
Qed.
Lemma good_fate_timer : forall t i k now t', handle_fate_timer t i k now = Ok t' -> good t -> good t'.
Proof. intros t i k now t' H G. unfold handle_fate_timer in H. ub H s E. injection H as <-. apply good_set_list. revert G. apply good_eq; reflexivity. Qed.
Lemma good_unsorted : forall t i s k r o, queue_unsorted_session t i s k r = Ok o -> good t -> good (match o with Some t' => t' | None => t end).
Proof.
  intros t i s k r o H G. unfold queue_unsorted_session in H.
  assert (X : forall n k, good (put_sess (set_list (if r then unlink t i else t) k n) i (TS (s_dst6 s) (s_dst4 s) (s_state s) (s_bib s) (s_time s) k (s_stored s)))).
  { intros n k'. eapply (good_eq (set_list (if r then unlink t i else t) k' n)); try reflexivity. apply good_set_list. destruct r; [revert G; apply good_eq; reflexivity|exact G]. }
  destruct k; [ub H n E|ub H n E|ub H n E|]; cbv zeta in H; apply (f_equal (fun x => match x with Ok y => y | _ => None end)) in H; cbn iota in H; subst o; try exact G; apply X.
Qed.
Lemma good_decide : forall c p t cb i pr now al ok t' evs al', decide_fate c p t cb i pr now al = Ok (ok, t', evs, al') -> good t -> good t'.
Proof.
  intros c p t cb i pr now al ok t' evs al' H G. unfold decide_fate in H. ub H s E. ub H tmp Et. destruct (cb tmp) as [tmp' f]. ub H r Er. destruct r as [t1 e1].
  assert (G0 : good (put_sess t i (set_cb s tmp'))) by (revert G; apply good_eq; reflexivity).
  assert (G1 : good t1) by (destruct (e_stored tmp'); [injection Er as <- _; exact G0|exact (good_kill _ _ _ _ Er G0)]). clear G0 G.
  destruct f.
  all: try (ub H t2 E2; injection H as _ <- _ _; exact (good_fate_timer _ _ _ _ _ E2 G1)).
  all: try (injection H as _ <- _ _; exact G1).
  - ub H r2 E2. destruct r2 as [[t2 e2] a2]. injection H as _ <- _ _. exact (good_rm _ _ _ _ _ _ _ _ E2 G1).
  - ub H r2 E2. destruct r2 as [[t2 e2] a2]. ub H t3 E3. injection H as _ <- _ _. exact (good_fate_timer _ _ _ _ _ E3 (good_probe _ _ _ _ _ _ _ _ E2 G1)).
  - ub H s2 E2. ub H o Eo. injection H as _ <- _ _. exact (good_unsorted _ _ _ _ _ _ Eo G1).
Qed.

Lemma good_commit_bib : forall t i b n6 n4, T6 (b_src6 b) -> T4 (b_src4 b) -> good t -> good (commit_bib t i b n6 n4).
Proof. intros t i b n6 n4 H6 H4 G. unfold commit_bib. eapply (good_eq (put_bib t i b)); try reflexivity. apply good_put; assumption. Qed.
Lemma good_commit_session : forall t i s bid n t', commit_session t i s bid n = Ok t' -> good t -> good t'.
Proof.
  intros t i s bid n t' H G. unfold commit_session in H. ub H b E. injection H as <-. destruct (good_get _ _ _ E G).
  eapply (good_eq (put_bib t bid (with_sess b (insert_at n i (b_sess b))))); try reflexivity. apply good_put; assumption.
Qed.
Lemma good_detach_sessions : forall l t t', detach_sessions t l = Ok t' -> good t -> good t'.
Proof.
  induction l as [|i l IH]; intros t t' H G; cbn [detach_sessions] in H; [injection H as <-; exact G|]. ub H s E. apply (IH _ _ H). destruct (s_stored s); revert G; apply good_eq; reflexivity.
Qed.
Lemma good_detach : forall t bid t', detach_bib t bid = Ok t' -> good t -> good t'.
Proof. intros t bid t' H G. unfold detach_bib in H. ub H a6 E6. ub H a4 E4. ub H b Eb. apply (good_detach_sessions _ _ _ H). revert G. apply good_eq; reflexivity. Qed.
Lemma good_release_sessions : forall l t t' evs, release_sessions t l = Ok (t', evs) -> good t -> good t'.
Proof.
  induction l as [|i l IH]; intros t t' evs H G; cbn [release_sessions] in H; [injection H as <- _; exact G|]. ub H s E. ub H t1 E1. ub H r E2. destruct r as [t2 e2]. injection H as <- _.
  exact (IH _ _ _ E2 (good_free_session _ _ _ E1 G)).
Qed.
Lemma good_release : forall t bid t' evs, release_bib_entry t bid = Ok (t', evs) -> good t -> good t'.
Proof. intros t bid t' evs H G. unfold release_bib_entry in H. ub H b E. ub H r E1. destruct r as [t1 e1]. ub H t2 E2. injection H as <- _. exact (good_free _ _ _ E2 (good_release_sessions _ _ _ _ E1 G)). Qed.
Lemma good_delete : forall l t t' evs, commit_delete_list t l = Ok (t', evs) -> good t -> good t'.
Proof.
  induction l as [|i l IH]; intros t t' evs H G; cbn [commit_delete_list] in H; [injection H as <- _; exact G|]. ub H r E. destruct r as [t1 e1]. ub H r' E'. destruct r' as [t2 e2]. injection H as <- _.
  exact (IH _ _ _ E' (good_release _ _ _ _ E G)).
Qed.

Lemma mask_in : forall t fuel d prev k n d' out, mask_loop t d prev fuel = Ok (Some (k, n), d') -> enum fuel d = Ok out -> In k (map fst out).
Proof.
  intros t. induction fuel as [|fuel IH]; intros d prev k n d' out H E; cbn [mask_loop enum] in *; [discriminate|]. ub H r Er. destruct r as [d1 o]. rewrite Er in E. cbn [bind] in E.
  destruct o as [[[a port] cons]|]; [|discriminate H]. ub E l El. injection E as <-. ub H r1 Er1. destruct r1 as [[j|] m].
  - right. exact (IH _ _ _ _ _ _ H El).
  - injection H as <- _ _. left. reflexivity.
Qed.

Definition masks_ok (masks : option domain) (w : newc) : Prop :=
  match masks with Some d => exists out, offers d out /\ forall a, In a (map fst out) -> T4 a | None => T4 (w_src4 w) end.

Lemma good_upgrade : forall p t masks w now al t' u evs al', upgrade_pktqueue_session p t masks w now al = Ok (t', u, evs, al') -> T6 (w_src6 w) -> good t -> good t'.
Proof.
  intros p t masks w now al t' u evs al' H H6 G. unfold upgrade_pktqueue_session in H. destruct p; try (injection H as <- _ _ _; exact G).
  unfold pktqueue_find in H. destruct (q_find (queue t) (w_dst6 w)) as [n|] eqn:Ef; [|injection H as <- _ _ _; exact G].
  destruct (match masks with Some d => negb (mask_domain_matches d (fst (q_src4 n)) (snd (q_src4 n))) | None => false end); [injection H as <- _ _ _; exact G|].
  assert (H4 : T4 (q_src4 n)). { apply G. unfold q_find in Ef. apply find_some in Ef. apply Ef. }
  assert (G1 : forall m, good (set_pkts (set_queue t (q_rm (queue t) (w_dst6 w))) m)). { intros m. revert G. apply good_incl; [reflexivity|]. intros x X. cbn in X. unfold q_rm in X. apply filter_In in X. apply X. }
  destruct masks as [d|]; [|injection H as <- _ _ _; apply G1]. destruct (alloc_bib_session al) as [a al1].
  destruct a; try (injection H as <- _ _ _; eapply (good_eq _ _ eq_refl eq_refl); apply G1).
  ub H r6 E6. destruct r6 as [[j|] n6]; [injection H as <- _ _ _; eapply (good_eq _ _ eq_refl eq_refl); apply G1|].
  ub H r4 E4. destruct r4 as [[j|] n4]; [injection H as <- _ _ _; eapply (good_eq _ _ eq_refl eq_refl); apply G1|].
  ub H t1 E1. assert (X : t' = attach_timer t1 (fresh (set_pkts (set_queue t (q_rm (queue t) (w_dst6 w))) (pkts t - 1)) + 1) T_SYN4) by congruence. rewrite X. apply good_attach. apply (good_commit_session _ _ _ _ _ _ E1). apply good_commit_bib; [exact H6|exact H4|]. eapply (good_eq _ _ eq_refl eq_refl). apply G1.
  Unshelve. all: exact 0.
Qed.
Lemma good_new : forall p t masks w ob n6 bdl evs al e f m, find_new p t masks w ob n6 bdl evs al = Ok (e, f, m) -> T6 (w_src6 w) -> masks_ok masks w -> good t ->
  good (f_t f) /\ T6 (w_src6 (f_new f)) /\ (e = OK -> T4 (w_src4 (f_new f))).
Proof.
  intros p t masks w ob n6 bdl evs al e f m H H6 M G. unfold find_new in H. destruct masks as [d|].
  - ub H r E. destruct r as [[[k n4]|] d']; injection H as <- <- _; cbn [f_t f_new]; [|split; [exact G|]; split; [exact H6|discriminate]].
    destruct M as (out & [O1 O2] & M). pose proof (M _ (mask_in _ _ _ _ _ _ _ _ E O1)) as K. split; [exact G|]. destruct p; cbn; auto.
  - ub H r E. destruct r as [[j|] n4]; injection H as <- <- _; cbn [f_t f_new]; (split; [exact G|]); (split; [exact H6|]); [discriminate|intros _; exact M].
Qed.
Lemma good_find : forall p t masks w now al e f m, find_bib_session6 p t masks w now al = Ok (e, f, m) -> T6 (w_src6 w) -> masks_ok masks w -> good t ->
  good (f_t f) /\ T6 (w_src6 (f_new f)) /\ (e = OK -> f_bib f = None -> T4 (w_src4 (f_new f))).
Proof.
  intros p t masks w now al e f m H H6 M G. unfold find_bib_session6 in H. ub H r E. destruct r as [[bid|] n].
  - ub H b Eb. destruct (negb (issue216_needed masks b)).
    + ub H s Es. destruct s as [[os ns] x]. injection H as <- <- _. cbn [f_t f_new f_bib]. split; [exact G|]. split; [destruct p; exact H6|discriminate].
    + ub H t1 E1. pose proof (good_detach _ _ _ E1 G) as G1. ub H r Er. destruct r as [[ob|] n6].
      * injection H as <- <- _. cbn. split; [exact G1|]. split; [exact H6|discriminate].
      * destruct (good_new _ _ _ _ _ _ _ _ _ _ _ _ H H6 M G1) as (A & B & C). split; [exact A|]. split; [exact B|]. intros X _. exact (C X).
  - ub H r Er. destruct r as [[[t1 u] e1] al1]. pose proof (good_upgrade _ _ _ _ _ _ _ _ _ _ Er H6 G) as G1. destruct u as [bid sid|ob].
    + injection H as <- <- _. cbn. split; [exact G1|]. split; [exact H6|discriminate].
    + destruct (good_new _ _ _ _ _ _ _ _ _ _ _ _ H H6 M G1) as (A & B & C). split; [exact A|]. split; [exact B|]. intros X _. exact (C X).
Qed.
Lemma good_link : forall t f k time t' sid, link_new t f k time = Ok (t', sid) -> T6 (w_src6 (f_new f)) -> (f_bib f = None -> T4 (w_src4 (f_new f))) -> good t -> good t'.
Proof.
  intros t f k time t' sid H H6 H4 G. unfold link_new in H. destruct (f_bib f) as [bid|].
  - ub H t1 E. injection H as <- _. apply (good_commit_session _ _ _ _ _ _ E). revert G. apply good_eq; reflexivity.
  - ub H t1 E. injection H as <- _. apply (good_commit_session _ _ _ _ _ _ E). apply good_commit_bib; [exact H6|exact (H4 eq_refl)|]. revert G. apply good_eq; reflexivity.
Qed.
Lemma good_add6' : forall c p t f k now t' en, commit_add6 c p t f k now = Ok (t', en) -> T6 (w_src6 (f_new f)) -> (f_bib f = None -> T4 (w_src4 (f_new f))) -> good t -> good t'.
Proof. intros c p t f k now t' en H H6 H4 G. unfold commit_add6 in H. ub H r E. destruct r as [t1 sid]. ub H x Ex. injection H as <- _. apply good_attach. exact (good_link _ _ _ _ _ _ E H6 H4 G). Qed.
Lemma good_add4' : forall c p t bid n d6 d4 st sto k now t' en, commit_add4 c p t bid n d6 d4 st sto k now = Ok (t', en) -> good t -> good t'.
Proof.
  intros c p t bid n d6 d4 st sto k now t' en H G. unfold commit_add4 in H. ub H t1 E. ub H x Ex. injection H as <- _. apply good_attach. apply (good_commit_session _ _ _ _ _ _ E). revert G. apply good_eq; reflexivity.
Qed.

Lemma good_bib_add6 : forall c p t d s6 d6 d4 now al x en t' evs, bib_add6 c p t d s6 d6 d4 now al = Ok (x, en, t', evs) -> gives (OAdd6 d s6 d6 d4 now al) -> good t -> good t'.
Proof.
  intros c p t d s6 d6 d4 now al x en t' evs H [H6 M] G. unfold bib_add6 in H. destruct (alloc_bib_session al) as [a al1]. destruct a; try (injection H as _ _ <- _; exact G).
  ub H r E. destruct r as [[e f] m]. destruct (good_find _ _ _ _ _ _ _ _ _ E H6 M G) as (A & B & C). ub H y Ey. destruct y as [[e2 en2] t2]. ub H z Ez. destruct z as [t3 e3]. injection H as _ _ <- _.
  apply (good_delete _ _ _ _ Ez). destruct e as [|x0].
  - destruct (f_sess f).
    + ub Ey t4 E4. ub Ey en4 E5. injection Ey as _ _ <-. exact (good_fate_timer _ _ _ _ _ E4 A).
    + ub Ey r E4. destruct r as [t4 en4]. injection Ey as _ _ <-. exact (good_add6' _ _ _ _ _ _ _ _ E4 B (C eq_refl) A).
  - injection Ey as _ _ <-. exact A.
Qed.
Lemma good_bib_add4 : forall c p t s4 d4 d6 now al x en t', bib_add4 c p t s4 d4 d6 now al = Ok (x, en, t') -> good t -> good t'.
Proof.
  intros c p t s4 d4 d6 now al x en t' H G. unfold bib_add4 in H. destruct (draw_alloc al) as [a al1]. destruct (negb a); [injection H as _ _ <-; exact G|]. ub H r E. destruct r as [[[ob os] n] allow]. destruct os as [sid|].
  - ub H t1 E1. ub H e1 E2. injection H as _ _ <-. exact (good_fate_timer _ _ _ _ _ E1 G).
  - destruct ob as [bid|]; [|injection H as _ _ <-; exact G]. destruct (c_drop_by_addr c && negb allow); [injection H as _ _ <-; exact G|]. ub H r E1. destruct r as [t1 e1]. injection H as _ _ <-. exact (good_add4' _ _ _ _ _ _ _ _ _ _ _ _ _ E1 G).
Qed.
Lemma good_tcp6 : forall c t d s6 d6 d4 g now al v en t' evs, bib_add_tcp6 c t d s6 d6 d4 g now al = Ok (v, en, t', evs) -> gives (OTcp6 d s6 d6 d4 g now al) -> good t -> good t'.
Proof.
  intros c t d s6 d6 d4 g now al v en t' evs H [H6 M] G. unfold bib_add_tcp6 in H. destruct (alloc_bib_session al) as [a al1]. destruct a; try (injection H as _ _ <- _; exact G).
  ub H r E. destruct r as [[e f] m]. destruct (good_find _ _ _ _ _ _ _ _ _ E H6 M G) as (A & B & C). ub H y Ey. destruct y as [[[v2 en2] t2] ev2]. ub H z Ez. destruct z as [t3 e3]. injection H as _ _ <- _.
  apply (good_delete _ _ _ _ Ez). destruct e as [|x0]; [|injection Ey as _ _ <- _; exact A]. destruct (f_sess f).
  - ub Ey r E4. destruct r as [[[ok t4] e4] al4]. destruct ok; [ub Ey en4 E5|]; injection Ey as _ _ <- _; exact (good_decide _ _ _ _ _ _ _ _ _ _ _ _ E4 A).
  - destruct (sg_syn g).
    + ub Ey r E4. destruct r as [t4 en4]. injection Ey as _ _ <- _. exact (good_add6' _ _ _ _ _ _ _ _ E4 B (C eq_refl) A).
    + destruct (f_bib f); [ub Ey b Eb|]; injection Ey as _ _ <- _; exact A.
Qed.
Lemma good_tcp4 : forall c t s4 d4 d6 g skb now al v en t' evs, bib_add_tcp4 c t s4 d4 d6 g skb now al = Ok (v, en, t', evs) -> T4 s4 -> good t -> good t'.
Proof.
  intros c t s4 d4 d6 g skb now al v en t' evs H H4 G. unfold bib_add_tcp4 in H. destruct (draw_alloc al) as [a al1]. destruct (negb a); [injection H as _ _ <- _; exact G|]. ub H r E. destruct r as [[[ob os] n] allow]. destruct os as [sid|].
  - ub H r E1. destruct r as [[[ok t1] e1] a1]. destruct ok; [ub H en1 E2|]; injection H as _ _ <- _; exact (good_decide _ _ _ _ _ _ _ _ _ _ _ _ E1 G).
  - destruct (negb (sg_syn g)); [destruct ob; [ub H b Eb|]; injection H as _ _ <- _; exact G|]. destruct (c_drop_external_tcp c); [injection H as _ _ <- _; exact G|]. destruct ob as [bid|].
    + destruct (c_drop_by_addr c); [destruct (c_max_stored_pkts c <=? u32 (pkts t)); [injection H as _ _ <- _; exact G|]|]; ub H r E1; destruct r as [t1 e1]; injection H as _ _ <- _; refine (good_add4' _ _ _ _ _ _ _ _ _ _ _ _ _ E1 _); revert G; apply good_eq; reflexivity.
    + destruct (draw_alloc al1) as [a2 al2]. unfold pktqueue_add in H. destruct (negb a2); [injection H as _ _ <- _; exact G|]. destruct (q_find (queue t) (q_dst6 (PN d6 s4 d4 skb now))); [injection H as _ _ <- _; exact G|].
      destruct (c_max_stored_pkts c <=? u32 (pkts t)); injection H as _ _ <- _; [exact G|]. destruct G as [G1 G2]. split; [exact G1|]. cbn. intros x X. apply in_app_or in X. destruct X as [X|[<-|[]]]; [exact (G2 _ X)|exact H4].
Qed.
Lemma good_sync : forall c p t e now al x t' evs, bib_add_session c p t e now al = Ok (x, t', evs) -> T6 (e_src6 e) -> T4 (e_src4 e) -> good t -> good t'.
Proof.
  intros c p t e now al x t' evs H H6 H4 G. unfold bib_add_session in H. destruct (alloc_bib_session al) as [a al1]. destruct a; try (injection H as _ <- _; exact G).
  ub H r E. destruct r as [[e1 f] m]. destruct (good_find _ _ _ _ _ _ _ _ _ E H6 H4 G) as (A & B & C). destruct e1 as [|x0]; [|injection H as _ <- _; exact A]. destruct (f_sess f).
  - ub H r E4. destruct r as [[[ok t4] e4] al4]. injection H as _ <- _. exact (good_decide _ _ _ _ _ _ _ _ _ _ _ _ E4 A).
  - destruct (e_timer e); try (ub H n En; ub H r E4; destruct r as [t4 sid]; injection H as _ <- _; refine (good_eq _ _ eq_refl eq_refl (good_link _ _ _ _ _ _ E4 B (C eq_refl) A))). injection H as _ <- _. exact A.
Qed.
Lemma good_clean_loop : forall c p cb timeout now ids t al t' evs al', clean_loop c p t cb timeout ids now al = Ok (t', evs, al') -> good t -> good t'.
Proof.
  intros c p cb timeout now. induction ids as [|i ids IH]; intros t al t' evs al' H G; cbn [clean_loop] in H; [injection H as <- _ _; exact G|]. ub H s E. destruct (time_before now (u64 (s_time s + timeout))); [injection H as <- _ _; exact G|].
  ub H r E1. destruct r as [[[ok t1] e1] a1]. ub H r E2. destruct r as [[t2 e2] a2]. injection H as <- _ _. exact (IH _ _ _ _ _ E2 (good_decide _ _ _ _ _ _ _ _ _ _ _ _ E1 G)).
Qed.
Lemma clean_incl : forall c now q q' evs, pktqueue_clean c q now = (q', evs) -> incl q' q.
Proof.
  intros c now. induction q as [|n q IH]; intros q' evs H; cbn [pktqueue_clean] in H; [injection H as <- _; apply incl_refl|]. destruct (time_before _ _); [injection H as <- _; apply incl_refl|].
  destruct (pktqueue_clean c q now) as [r e]. injection H as <- _. apply incl_tl, (IH _ _ eq_refl).
Qed.
Lemma good_clean : forall c p t now al t' evs, clean_table c p t now al = Ok (t', evs) -> good t -> good t'.
Proof.
  intros c p t now al t' evs H G. unfold clean_table in H. ub H r E1. destruct r as [[t1 e1] a1]. ub H r E2. destruct r as [[t2 e2] a2]. ub H r E3. destruct r as [[t3 e3] a3].
  pose proof (good_clean_loop _ _ _ _ _ _ _ _ _ _ _ E3 (good_clean_loop _ _ _ _ _ _ _ _ _ _ _ E2 (good_clean_loop _ _ _ _ _ _ _ _ _ _ _ E1 G))) as G3.
  destruct (pktqueue_clean c (queue t3) now) as [q e4] eqn:Eq. injection H as <- _. revert G3. apply good_incl; [reflexivity|]. cbn. exact (clean_incl _ _ _ _ _ Eq).
Qed.
Lemma good_static : forall p t s6 s4 al x t' evs, bib_add_static p t s6 s4 al = Ok (x, t', evs) -> T6 s6 -> T4 s4 -> good t -> good t'.
Proof.
  intros p t s6 s4 al x t' evs H H6 H4 G. unfold bib_add_static in H. destruct (draw_alloc al) as [a al1]. destruct (negb a); [injection H as _ <- _; exact G|]. ub H r E. destruct r as [[i|] n6].
  - ub H b Eb. destruct (good_get _ _ _ Eb G). destruct (ta_eqb s4 (b_src4 b)); injection H as _ <- _; [apply good_put; assumption|exact G].
  - ub H r E4. destruct r as [[j|] n4]; [injection H as _ <- _; exact G|].
    assert (G1 : good (commit_bib (set_fresh t (fresh t + 1)) (fresh t) (TB s6 s4 true []) n6 n4)) by (apply good_commit_bib; [exact H6|exact H4|]; revert G; apply good_eq; reflexivity).
    destruct p; try (injection H as _ <- _; exact G1). unfold pktqueue_rm in H. injection H as _ <- _. revert G1. apply good_incl; [reflexivity|]. cbn. intros y Y. apply filter_In in Y. apply Y.
Qed.
Lemma good_bib_rm : forall t s6 s4 x t' evs, bib_rm t s6 s4 = Ok (x, t', evs) -> good t -> good t'.
Proof.
  intros t s6 s4 x t' evs H G. unfold bib_rm in H. ub H r E. destruct (fst r); [|injection H as _ <- _; exact G]. ub H b Eb. destruct (ta_eqb s4 (b_src4 b)); [|injection H as _ <- _; exact G].
  ub H t1 E1. ub H r2 E2. destruct r2 as [t2 e2]. injection H as _ <- _. exact (good_release _ _ _ _ E2 (good_detach _ _ _ E1 G)).
Qed.
Lemma good_range : forall t pf lo hi t' evs, bib_rm_range t pf lo hi = Ok (t', evs) -> good t -> good t'.
Proof.
  intros t pf lo hi t' evs H G. unfold bib_rm_range in H. ub H l El. ub H r Er. destruct r as [t1 bdl]. apply (good_delete _ _ _ _ H). cbn [fst]. clear H El. revert t t1 bdl G Er. generalize (@nil Z) as b0.
  induction l as [|i l IH]; intros b0 t t1 bdl G Er; cbn [rm_range_loop] in Er; [injection Er as <- _; exact G|]. ub Er b Eb. destruct (negb (prefix4_contains pf (fst (b_src4 b)))); [injection Er as <- _; exact G|].
  destruct (port_range_contains lo hi (snd (b_src4 b))); [ub Er t2 E2; exact (IH _ _ _ _ (good_detach _ _ _ E2 G) Er)|exact (IH _ _ _ _ G Er)].
Qed.
Lemma good_flush : forall t t' evs, flush_table t = Ok (t', evs) -> good t -> good t'.
Proof.
  intros t t' evs H G. unfold flush_table in H. ub H r Er. destruct r as [t1 bdl]. apply (good_delete _ _ _ _ H). cbn [fst]. clear H. revert t t1 bdl G Er. generalize (@nil Z) as b0. intros b0 t. generalize (tree4 t) as l. intros l. revert b0 t.
  induction l as [|i l IH]; intros b0 t t1 bdl G Er; cbn [flush_loop] in Er; [injection Er as <- _; exact G|]. ub Er t2 E2. exact (IH _ _ _ _ (good_detach _ _ _ E2 G) Er).
Qed.

Theorem good_step : forall c p t o x t' evs, gives o -> good t -> step c p t o = Ok (x, t', evs) -> good t'.
Proof.
  intros c p t o x t' evs V G H. destruct o; cbn [step gives] in *.
  - destruct p; try (ub H r E; destruct r as [[[e en] t1] e1]; injection H as _ <- _; exact (good_bib_add6 _ _ _ _ _ _ _ _ _ _ _ _ _ E V G)). injection H as _ <- _. exact G.
  - destruct p; try (ub H r E; destruct r as [[e en] t1]; injection H as _ <- _; exact (good_bib_add4 _ _ _ _ _ _ _ _ _ _ _ E G)). injection H as _ <- _. exact G.
  - destruct p; try (injection H as _ <- _; exact G). ub H r E; destruct r as [[[e en] t1] e1]; injection H as _ <- _; exact (good_tcp6 _ _ _ _ _ _ _ _ _ _ _ _ _ E V G).
  - destruct p; try (injection H as _ <- _; exact G). ub H r E; destruct r as [[[e en] t1] e1]; injection H as _ <- _; exact (good_tcp4 _ _ _ _ _ _ _ _ _ _ _ _ _ E V G).
  - ub H r E. destruct r as [[y t1] e1]. injection H as _ <- _. exact (good_sync _ _ _ _ _ _ _ _ _ E (proj1 V) (proj2 V) G).
  - ub H r E. destruct r as [t1 e1]. injection H as _ <- _. exact (good_clean _ _ _ _ _ _ _ E G).
  - ub H r E. destruct r as [[y t1] e1]. injection H as _ <- _. exact (good_static _ _ _ _ _ _ _ _ E (proj1 V) (proj2 V) G).
  - ub H r E. destruct r as [[y t1] e1]. injection H as _ <- _. exact (good_bib_rm _ _ _ _ _ _ E G).
  - ub H r E. destruct r as [t1 e1]. injection H as _ <- _. exact (good_range _ _ _ _ _ _ E G).
  - ub H r E. destruct r as [t1 e1]. injection H as _ <- _. exact (good_flush _ _ _ E G).
Qed.
Lemma good_init : good init_table.
Proof. split; [intros i b H; discriminate H|intros n []]. Qed.
Theorem good_run : forall p h t t' evs, (forall c o, In (c, o) h -> gives o) -> good t -> run p t h = Ok (t', evs) -> good t'.
Proof.
  intros p. induction h as [|[c o] h IH]; intros t t' evs V G H; cbn [run] in H; [injection H as <- _; exact G|]. ub H r E. destruct r as [[x t1] e1]. ub H r' E'. destruct r' as [t2 e2]. injection H as <- _.
  refine (IH _ _ _ _ _ E'); [intros c' o' X; exact (V c' o' (or_intror X))|]. exact (good_step _ _ _ _ _ _ _ (V c o (or_introl eq_refl)) G E).
Qed.
End Origin.
