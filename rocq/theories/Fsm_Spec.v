(** RFC 6146 section 3.5.2.2, state by state.  A rule says: in this state this
    segment leads to that state, and the session's lifetime is set to TCP_EST,
    set to TCP_TRANS, or left alone.  [hr] is the deviation users can enable
    (handle-rst-during-fin-rcv): a RST in a FIN RCV state shortens the lifetime. *)
Require Import Verif.Base Verif.Fsm_Model.

Inductive pstate := Established | V6Init | V4Init | V4Fin | V6Fin | BothFin | Trans.
Inductive life := SetEst | SetTrans | Keep.

Definition from6 (g : segment) := sg_fam g = V6.
Definition from4 (g : segment) := sg_fam g = V4.
Definition syn (g : segment) := sg_syn g = true.
Definition fin (g : segment) := sg_fin g = true.
Definition rst (g : segment) := sg_rst g = true.

Inductive rfc (hr : bool) : pstate -> segment -> pstate -> life -> Prop :=
| R_v4init_syn6 g : from6 g -> syn g -> rfc hr V4Init g Established SetEst
| R_v4init_other g : ~ (from6 g /\ syn g) -> rfc hr V4Init g V4Init Keep
| R_v6init_syn4 g : from4 g -> syn g -> rfc hr V6Init g Established SetEst
| R_v6init_syn6 g : from6 g -> syn g -> rfc hr V6Init g V6Init SetTrans
| R_v6init_other g : ~ syn g -> rfc hr V6Init g V6Init Keep
| R_est_fin4 g : from4 g -> fin g -> rfc hr Established g V4Fin Keep
| R_est_fin6 g : from6 g -> fin g -> rfc hr Established g V6Fin Keep
| R_est_rst g : rst g -> rfc hr Established g Trans SetTrans
| R_est_other g : ~ fin g -> ~ rst g -> rfc hr Established g Established SetEst
| R_v4fin_fin6 g : from6 g -> fin g -> rfc hr V4Fin g BothFin SetTrans
| R_v4fin_rst g : hr = true -> rst g -> rfc hr V4Fin g V4Fin SetTrans
| R_v4fin_other g : ~ (from6 g /\ fin g) -> ~ (hr = true /\ rst g) -> rfc hr V4Fin g V4Fin SetEst
| R_v6fin_fin4 g : from4 g -> fin g -> rfc hr V6Fin g BothFin SetTrans
| R_v6fin_rst g : hr = true -> rst g -> rfc hr V6Fin g V6Fin SetTrans
| R_v6fin_other g : ~ (from4 g /\ fin g) -> ~ (hr = true /\ rst g) -> rfc hr V6Fin g V6Fin SetEst
| R_bothfin g : rfc hr BothFin g BothFin Keep
| R_trans_rst g : rst g -> rfc hr Trans g Trans Keep
| R_trans_other g : ~ rst g -> rfc hr Trans g Established SetEst.

(** The numbers the code uses for the states. *)
Definition code (s : pstate) : Z :=
  match s with
  | Established => 0 | V6Init => 1 | V4Init => 2 | V4Fin => 3 | V6Fin => 4 | BothFin => 5 | Trans => 6
  end.

(** A segment that both closes and resets: the RFC has two rules for it. *)
Definition ambiguous (hr : bool) (s : pstate) (g : segment) : Prop :=
  fin g /\ rst g /\
  match s with Established => True | V4Fin => hr = true /\ from6 g | V6Fin => hr = true /\ from4 g | _ => False end.

(** What a sequence of segments may do to a session. *)
Inductive rfc_path (hr : bool) : pstate -> list segment -> pstate -> Prop :=
| P_nil s : rfc_path hr s [] s
| P_cons s g s' l gs s'' : rfc hr s g s' l -> rfc_path hr s' gs s'' -> rfc_path hr s (g :: gs) s''.
