(** Properties of the TCP state machine (C20). *)
Require Import Verif.Base Verif.Fsm_Model Verif.Fsm_Spec.

Definition fate_life (f : fate) : option life :=
  match f with
  | FATE_TIMER_EST => Some SetEst
  | FATE_TIMER_TRANS => Some SetTrans
  | FATE_PRESERVE => Some Keep
  | _ => None
  end.

(** Only the state and the stored mark may change. *)
Definition same_but_state (e e' : sentry) : Prop :=
  e_src6 e' = e_src6 e /\ e_dst6 e' = e_dst6 e /\ e_src4 e' = e_src4 e /\ e_dst4 e' = e_dst4 e /\
  e_timer e' = e_timer e /\ e_time e' = e_time e /\ e_timeout e' = e_timeout e.

(** ** C20: every transition is one of RFC 6146's.  The one segment the machine
    refuses (FATE_DROP) is an IPv4 one to a session waiting with a stored SYN. *)
Theorem C20_transition : forall hr s g e, e_state e = code s ->
  let (e', f) := tcp_state_machine hr g e in
  same_but_state e e' /\
  (f = FATE_DROP /\ s = V4Init /\ from4 g /\ e_stored e = true /\ e' = e
   \/ exists s' l, fate_life f = Some l /\ e_state e' = code s' /\ rfc hr s g s' l /\
        ~ (s = V4Init /\ from4 g /\ e_stored e = true) /\
        (e_stored e' = e_stored e \/ s = V4Init /\ from6 g /\ syn g /\ e_stored e' = false)).
Proof.
  intros hr s [fm sy fi rs] e He. unfold tcp_state_machine, same_but_state. rewrite He.
  destruct s; cbn [code Z.eqb Pos.eqb ESTABLISHED V4_INIT V6_INIT V4_FIN_RCV V6_FIN_RCV V4_FIN_V6_FIN_RCV TRANS];
    unfold tcp_established_state, tcp_v4_init_state, tcp_v6_init_state, tcp_v4_fin_rcv_state, tcp_v6_fin_rcv_state, tcp_trans_state;
    cbn [sg_fam sg_syn sg_fin sg_rst].
  - destruct fi; [|destruct rs]; (split; [cbn; tauto|]); right.
    + destruct fm.
      * exists V6Fin, Keep. cbn. split; [reflexivity|]. split; [reflexivity|]. split; [apply R_est_fin6; reflexivity|].
        split; [intros (H & _); discriminate|left; reflexivity].
      * exists V4Fin, Keep. cbn. split; [reflexivity|]. split; [reflexivity|]. split; [apply R_est_fin4; reflexivity|].
        split; [intros (H & _); discriminate|left; reflexivity].
    + exists Trans, SetTrans. cbn. split; [reflexivity|]. split; [reflexivity|]. split; [apply R_est_rst; reflexivity|].
      split; [intros (H & _); discriminate|left; reflexivity].
    + exists Established, SetEst. cbn. split; [reflexivity|]. split; [assumption|].
      split; [apply R_est_other; unfold fin, rst; discriminate|].
      split; [intros (H & _); discriminate|left; reflexivity].
  - destruct sy.
    + destruct fm; (split; [cbn; tauto|]); right.
      * exists V6Init, SetTrans. cbn. split; [reflexivity|]. split; [assumption|]. split; [apply R_v6init_syn6; reflexivity|].
        split; [intros (H & _); discriminate|left; reflexivity].
      * exists Established, SetEst. cbn. split; [reflexivity|]. split; [reflexivity|]. split; [apply R_v6init_syn4; reflexivity|].
        split; [intros (H & _); discriminate|left; reflexivity].
    + split; [cbn; tauto|]. right. exists V6Init, Keep. cbn. split; [reflexivity|]. split; [assumption|].
      split; [apply R_v6init_other; unfold syn; discriminate|].
      split; [intros (H & _); discriminate|left; reflexivity].
  - destruct fm.
    + destruct sy; (split; [cbn; tauto|]); right.
      * exists Established, SetEst. cbn. split; [reflexivity|]. split; [reflexivity|]. split; [apply R_v4init_syn6; reflexivity|].
        split; [intros (_ & H & _); discriminate|right; repeat split].
      * exists V4Init, Keep. cbn. split; [reflexivity|]. split; [assumption|].
        split; [apply R_v4init_other; intros [_ H]; discriminate|].
        split; [intros (_ & H & _); discriminate|left; reflexivity].
    + destruct (e_stored e) eqn:Es; (split; [cbn; tauto|]).
      * left. repeat split.
      * right. exists V4Init, Keep. cbn. split; [reflexivity|]. split; [assumption|].
        split; [apply R_v4init_other; intros [H _]; discriminate|].
        split; [intros (_ & _ & H); congruence|left; assumption].
  - destruct fm, fi, rs, hr; cbn [andb]; (split; [cbn; tauto|]); right;
      first [ exists BothFin, SetTrans; cbn; split; [reflexivity|]; split; [reflexivity|]; split; [apply R_v4fin_fin6; reflexivity|]
            | exists V4Fin, SetTrans; cbn; split; [reflexivity|]; split; [assumption|]; split; [apply R_v4fin_rst; reflexivity|]
            | exists V4Fin, SetEst; cbn; split; [reflexivity|]; split; [assumption|];
              split; [apply R_v4fin_other; [intros [? ?]; discriminate|intros [? ?]; discriminate]|] ];
      (split; [intros (H & _); discriminate|left; reflexivity]).
  - destruct fm, fi, rs, hr; cbn [andb]; (split; [cbn; tauto|]); right;
      first [ exists BothFin, SetTrans; cbn; split; [reflexivity|]; split; [reflexivity|]; split; [apply R_v6fin_fin4; reflexivity|]
            | exists V6Fin, SetTrans; cbn; split; [reflexivity|]; split; [assumption|]; split; [apply R_v6fin_rst; reflexivity|]
            | exists V6Fin, SetEst; cbn; split; [reflexivity|]; split; [assumption|];
              split; [apply R_v6fin_other; [intros [? ?]; discriminate|intros [? ?]; discriminate]|] ];
      (split; [intros (H & _); discriminate|left; reflexivity]).
  - split; [cbn; tauto|]. right. exists BothFin, Keep. cbn. split; [reflexivity|]. split; [assumption|]. split; [constructor|].
    split; [intros (H & _); discriminate|left; reflexivity].
  - destruct rs; (split; [cbn; tauto|]); right.
    + exists Trans, Keep. cbn. split; [reflexivity|]. split; [assumption|]. split; [apply R_trans_rst; reflexivity|].
      split; [intros (H & _); discriminate|left; reflexivity].
    + exists Established, SetEst. cbn. split; [reflexivity|]. split; [reflexivity|].
      split; [apply R_trans_other; unfold rst; discriminate|].
      split; [intros (H & _); discriminate|left; reflexivity].
Qed.

(** Where RFC 6146 has one answer, the code gives that one. *)
Theorem C20_unique : forall hr s g e s' l, e_state e = code s -> ~ ambiguous hr s g -> rfc hr s g s' l ->
  forall e' f, tcp_state_machine hr g e = (e', f) -> f <> FATE_DROP ->
  e_state e' = code s' /\ fate_life f = Some l.
Proof.
  intros hr s g e s' l He Ha Hr e' f Hm Hf.
  pose proof (C20_transition hr s g e He) as H. rewrite Hm in H. destruct H as [_ [[H _]|(s2 & l2 & H1 & H2 & H3 & _)]]; [contradiction|].
  assert (s2 = s' /\ l2 = l) as [-> ->]; [|auto].
  clear Hm H1 H2 He Hf. unfold ambiguous in Ha.
  destruct g as [fm sy fi rs].
  inversion Hr; subst; inversion H3; subst; unfold from6, from4, syn, fin, rst in *; cbn in *;
    try (split; reflexivity); exfalso; intuition congruence.
Qed.

(** A run of segments through the machine; [None] when one is refused. *)
Fixpoint fsm_run (hr : bool) (e : sentry) (gs : list segment) : option sentry :=
  match gs with
  | [] => Some e
  | g :: gs' => match tcp_state_machine hr g e with
                | (_, FATE_DROP) => fsm_run hr e gs'
                | (_, FATE_RM) => None
                | (e', _) => fsm_run hr e' gs'
                end
  end.

(** The segments the machine lets through (not FATE_DROP). *)
Fixpoint passed (hr : bool) (e : sentry) (gs : list segment) : list segment :=
  match gs with
  | [] => []
  | g :: gs' => match tcp_state_machine hr g e with
                | (_, FATE_DROP) => passed hr e gs'
                | (e', _) => g :: passed hr e' gs'
                end
  end.

Theorem C20_sequences : forall hr gs s e, e_state e = code s ->
  exists e' s', fsm_run hr e gs = Some e' /\ e_state e' = code s' /\ rfc_path hr s (passed hr e gs) s'.
Proof.
  intros hr gs. induction gs as [|g gs IH]; intros s e He.
  - exists e, s. cbn. split; [reflexivity|]. split; [assumption|constructor].
  - cbn [fsm_run passed]. pose proof (C20_transition hr s g e He) as H.
    destruct (tcp_state_machine hr g e) as [e1 f].
    destruct H as [_ [(-> & _)|(s1 & l & H1 & H2 & H3 & _)]].
    + apply IH. assumption.
    + destruct (IH s1 e1 H2) as (e' & s' & E1 & E2 & E3).
      exists e', s'. destruct f; cbn in H1; try discriminate;
        (split; [exact E1|split; [exact E2|econstructor; [exact H3|exact E3]]]).
Qed.

(** Expiration: an established session is probed and becomes transitory; one
    that saw a FIN is deleted. *)
Theorem C20_expiration : forall now e,
  (e_state e = code Established ->
     tcp_est_expire_cb now e = (with_time (with_state e (code Trans)) now, FATE_PROBE)) /\
  (e_state e = code V4Fin \/ e_state e = code V6Fin -> tcp_est_expire_cb now e = (e, FATE_RM)).
Proof.
  intros now e. unfold tcp_est_expire_cb. split.
  - intros ->. reflexivity.
  - intros [-> | ->]; reflexivity.
Qed.

Example C20_handshake : forall e, e_state e = code V6Init ->
  exists e', fsm_run false e [Seg V4 true false false; Seg V6 false false false; Seg V4 false true false; Seg V6 false true false] = Some e'
             /\ e_state e' = code BothFin.
Proof. intros e He. eexists. unfold fsm_run, tcp_state_machine at 1. rewrite He. cbn. split; reflexivity. Qed.

Example C20_drop : let e := SE (1, 1) (2, 2) (3, 3) (4, 4) (code V4Init) T_SYN4 0 0 true in
  tcp_state_machine true (Seg V4 true false false) e = (e, FATE_DROP).
Proof. reflexivity. Qed.

Example C20_unique_witness : ~ ambiguous true Established (Seg V4 false true false) /\
  rfc true Established (Seg V4 false true false) V4Fin Keep.
Proof. split; [intros (_ & H & _); discriminate|apply R_est_fin4; reflexivity]. Qed.

Print Assumptions C20_transition.
Print Assumptions C20_unique.
Print Assumptions C20_sequences.
Print Assumptions C20_expiration.
