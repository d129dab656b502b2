(** Listing a table over Netlink in several requests: the part all the tables
    share.  The reply buffer of one request has room for [cap] entries
    (GENLMSG_DEFAULT_SIZE; jresponse_init, nl/nl_core.c:24-44); the client
    names the last entry it got and asks again while the M flag is on. *)
Require Import Verif.Base.

Section Paging.
Context {A : Type} (eqb : A -> A -> bool).

(** The loop of db/denylist4.c:246-258 (denylist4_foreach); the callback
    (nl/denylist4.c:11-14) returns 1 when the entry does not fit.  Result:
    entries put in the reply, whether the callback broke the loop, and the
    offset left unmatched, if any. *)
Fixpoint foreach_page (l : list A) (cap : nat) (offset : option A) : list A * bool * option A :=
  match l with
  | [] => ([], false, offset)
  | x :: l' =>
    match offset with
    | None =>
      match cap with
      | O => ([], true, None)
      | S c => let '(p, m, o) := foreach_page l' c None in (x :: p, m, o)
      end
    | Some o => foreach_page l' cap (if eqb o x then None else Some o)
    end
  end.

(** What the user has been shown: everything, an error, or the requests
    considered so far were not enough. *)
Inductive listing := LDone (l : list A) | LError (l : list A) | LPending (l : list A).
Definition shown (r : listing) : list A := match r with LDone l | LError l | LPending l => l end.
Definition lcons (p : list A) (r : listing) : listing :=
  match r with LDone l => LDone (p ++ l) | LError l => LError (p ++ l) | LPending l => LPending (p ++ l) end.

(** usr/nl/denylist4.c:43-77 (joolnl_denylist4_foreach and its response
    handler) against nl/nl_core.c:71-98 (jresponse_send_array), the table not
    changing meanwhile.  [caps]: capacity of each successive reply. *)
Fixpoint client (page : nat -> option A -> list A * bool * option A) (caps : list nat) (offset : option A) : listing :=
  match caps with
  | [] => LPending []
  | c :: caps' =>
    match page c offset with
    | (_, _, Some _) => LError []
    | (p, false, None) => LDone p
    | (p, true, None) =>
      match p with
      | [] => LError []
      | x :: p' => lcons p (client page caps' (Some (last p' x)))
      end
    end
  end.

Definition list_pages (l : list A) (caps : list nat) : listing := client (foreach_page l) caps None.

Hypothesis eqb_spec : forall a b, eqb a b = true <-> a = b.

Lemma foreach_page_none : forall l cap, foreach_page l cap None = (firstn cap l, (cap <? length l)%nat, None).
Proof.
  induction l as [|x l IH]; intros cap; [destruct cap; reflexivity|]. cbn [foreach_page]. destruct cap as [|c]; [reflexivity|].
  rewrite IH. reflexivity.
Qed.

Lemma foreach_page_skip : forall pre x l cap, ~ In x pre ->
  foreach_page (pre ++ x :: l) cap (Some x) = foreach_page l cap None.
Proof.
  induction pre as [|y pre IH]; intros x l cap Hn; cbn [app foreach_page].
  - destruct (eqb x x) eqn:E; [reflexivity|]. assert (eqb x x = true) by (apply eqb_spec; reflexivity). congruence.
  - destruct (eqb x y) eqn:E; [apply eqb_spec in E; subst; exfalso; apply Hn; left; reflexivity|].
    apply IH. intros H. apply Hn. right. exact H.
Qed.

Lemma last_indep : forall (p : list A) z x y, last (z :: p) x = last (z :: p) y.
Proof. induction p as [|w p IH]; intros z x y; [reflexivity|]. exact (IH w x y). Qed.

Lemma last_app_cons : forall (p : list A) x, exists q, x :: p = q ++ [last p x].
Proof.
  induction p as [|y p IH]; intros x; [exists []; reflexivity|].
  destruct (IH y) as (q & Hq). exists (x :: q). cbn [app]. f_equal.
  replace (last (y :: p) x) with (last p y); [exact Hq|].
  destruct p as [|z p]; [reflexivity|]. exact (last_indep p z y x).
Qed.

Lemma client_correct : forall caps pre l off, NoDup (pre ++ l) -> Forall (fun c => (1 <= c)%nat) caps ->
  (off = None /\ pre = [] \/ exists q x, off = Some x /\ pre = q ++ [x]) ->
  match client (foreach_page (pre ++ l)) caps off with
  | LDone r => r = l
  | LError _ => False
  | LPending r => (exists rest, l = r ++ rest) /\ (length caps <= length r)%nat
  end.
Proof.
  induction caps as [|c caps IH]; intros pre l off Hnd Hc Hoff.
  { cbn. split; [exists l; reflexivity|lia]. }
  inversion Hc as [|? ? Hc1 Hcs]; subst. cbn [client].
  assert (E : foreach_page (pre ++ l) c off = (firstn c l, (c <? length l)%nat, None)).
  { destruct Hoff as [[-> ->]|(q & x & -> & ->)]; [apply foreach_page_none|].
    rewrite <- app_assoc. cbn [app]. rewrite foreach_page_skip; [apply foreach_page_none|].
    rewrite <- app_assoc in Hnd. cbn [app] in Hnd. apply NoDup_remove_2 in Hnd. intros H. apply Hnd. apply in_or_app. auto. }
  rewrite E. destruct (Nat.ltb_spec c (length l)) as [Hlt|Hge].
  - destruct (firstn c l) as [|x p'] eqn:Ef.
    { destruct c; [lia|]. destruct l; [cbn in Hlt; lia|discriminate]. }
    destruct (last_app_cons p' x) as (q & Hq).
    assert (El : l = (x :: p') ++ skipn c l) by (rewrite <- Ef; symmetry; apply firstn_skipn).
    assert (Hpre : pre ++ l = (pre ++ x :: p') ++ skipn c l) by (rewrite <- app_assoc; congruence).
    rewrite Hpre. rewrite Hpre in Hnd.
    specialize (IH (pre ++ x :: p') (skipn c l) (Some (last p' x)) Hnd Hcs).
    destruct (client (foreach_page ((pre ++ x :: p') ++ skipn c l)) caps (Some (last p' x))) as [r|r|r]; cbn [lcons].
    + rewrite El. f_equal. apply IH. right. exists (pre ++ q), (last p' x). split; [reflexivity|]. rewrite <- app_assoc. congruence.
    + apply IH. right. exists (pre ++ q), (last p' x). split; [reflexivity|]. rewrite <- app_assoc. congruence.
    + destruct IH as [(rest & Hr) Hlen].
      { right. exists (pre ++ q), (last p' x). split; [reflexivity|]. rewrite <- app_assoc. congruence. }
      split; [exists rest; rewrite <- app_assoc, <- Hr; exact El|]. rewrite app_length. cbn [length]. lia.
  - apply firstn_all2. lia.
Qed.

(** Every entry exactly once, in table order, after at most [length l + 1]
    requests. *)
Theorem list_pages_exact : forall l caps, NoDup l -> Forall (fun c => (1 <= c)%nat) caps ->
  (length l < length caps)%nat -> list_pages l caps = LDone l.
Proof.
  intros l caps Hnd Hc Hlen. pose proof (client_correct caps [] l None Hnd Hc (or_introl (conj eq_refl eq_refl))) as H.
  unfold list_pages. cbn [app] in H. destruct (client (foreach_page l) caps None) as [r|r|r]; [congruence|contradiction|].
  destruct H as [(rest & ->) Hl]. rewrite app_length in Hlen. lia.
Qed.
End Paging.
Arguments listing A : clear implicits.
