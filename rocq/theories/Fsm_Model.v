(** Model of the TCP state machine of
    src/mod/common/steps/filtering_and_updating.c.

    States are the numbers of enum tcp_state (src/common/session.h), because
    the code stores them in an int that synchronisation messages can fill with
    any value. *)
Require Import Verif.Base.

Definition ESTABLISHED := 0.
Definition V6_INIT := 1.
Definition V4_INIT := 2.
Definition V4_FIN_RCV := 3.
Definition V6_FIN_RCV := 4.
Definition V4_FIN_V6_FIN_RCV := 5.
Definition TRANS := 6.

(** db/bib/entry.h:7-11 session_timer_type; [T_BAD] is any other number *)
Inductive timer := T_EST | T_TRANS | T_SYN4 | T_BAD.

(** db/bib/db.h:17-58 session_fate *)
Inductive fate := FATE_TIMER_EST | FATE_TIMER_TRANS | FATE_RM | FATE_PRESERVE | FATE_PROBE | FATE_DROP | FATE_TIMER_SLOW.

Definition ta := (Z * Z)%type. (* transport address: l3, l4 *)

(** db/bib/entry.h:22-68 session_entry (proto left out: one table each) *)
Record sentry := SE {
  e_src6 : ta; e_dst6 : ta; e_src4 : ta; e_dst4 : ta;
  e_state : Z; e_timer : timer; e_time : Z; e_timeout : Z; e_stored : bool }.

Definition with_state (e : sentry) (s : Z) : sentry :=
  SE (e_src6 e) (e_dst6 e) (e_src4 e) (e_dst4 e) s (e_timer e) (e_time e) (e_timeout e) (e_stored e).
Definition with_time (e : sentry) (t : Z) : sentry :=
  SE (e_src6 e) (e_dst6 e) (e_src4 e) (e_dst4 e) (e_state e) (e_timer e) t (e_timeout e) (e_stored e).
Definition without_stored (e : sentry) : sentry :=
  SE (e_src6 e) (e_dst6 e) (e_src4 e) (e_dst4 e) (e_state e) (e_timer e) (e_time e) (e_timeout e) false.

(** What the state machine looks at in a segment: its family and three flags. *)
Inductive fam := V6 | V4.
Record segment := Seg { sg_fam : fam; sg_syn : bool; sg_fin : bool; sg_rst : bool }.

(** filtering_and_updating.c:20-44 tcp_est_expire_cb *)
Definition tcp_est_expire_cb (now : Z) (e : sentry) : sentry * fate :=
  if e_state e =? ESTABLISHED then (with_time (with_state e TRANS) now, FATE_PROBE)
  else (e, FATE_RM).

(** filtering_and_updating.c:201-280 tcp_v4_init_state *)
Definition tcp_v4_init_state (g : segment) (e : sentry) : sentry * fate :=
  match sg_fam g with
  | V6 => if sg_syn g then (without_stored (with_state e ESTABLISHED), FATE_TIMER_EST) else (e, FATE_PRESERVE)
  | V4 => if e_stored e then (e, FATE_DROP) else (e, FATE_PRESERVE)
  end.

(** filtering_and_updating.c:286-302 tcp_v6_init_state *)
Definition tcp_v6_init_state (g : segment) (e : sentry) : sentry * fate :=
  if sg_syn g then
    match sg_fam g with
    | V4 => (with_state e ESTABLISHED, FATE_TIMER_EST)
    | V6 => (e, FATE_TIMER_TRANS)
    end
  else (e, FATE_PRESERVE).

(** filtering_and_updating.c:308-330 tcp_established_state *)
Definition tcp_established_state (g : segment) (e : sentry) : sentry * fate :=
  if sg_fin g then
    (with_state e (match sg_fam g with V4 => V4_FIN_RCV | V6 => V6_FIN_RCV end), FATE_PRESERVE)
  else if sg_rst g then (with_state e TRANS, FATE_TIMER_TRANS)
  else (e, FATE_TIMER_EST).

(** filtering_and_updating.c:341-358 tcp_v4_fin_rcv_state; [hr] is the option
    handle-rst-during-fin-rcv *)
Definition tcp_v4_fin_rcv_state (hr : bool) (g : segment) (e : sentry) : sentry * fate :=
  match sg_fam g, sg_fin g with
  | V6, true => (with_state e V4_FIN_V6_FIN_RCV, FATE_TIMER_TRANS)
  | _, _ => if sg_rst g && hr then (e, FATE_TIMER_TRANS) else (e, FATE_TIMER_EST)
  end.

(** filtering_and_updating.c:364-381 tcp_v6_fin_rcv_state *)
Definition tcp_v6_fin_rcv_state (hr : bool) (g : segment) (e : sentry) : sentry * fate :=
  match sg_fam g, sg_fin g with
  | V4, true => (with_state e V4_FIN_V6_FIN_RCV, FATE_TIMER_TRANS)
  | _, _ => if sg_rst g && hr then (e, FATE_TIMER_TRANS) else (e, FATE_TIMER_EST)
  end.

(** filtering_and_updating.c:397-408 tcp_trans_state *)
Definition tcp_trans_state (g : segment) (e : sentry) : sentry * fate :=
  if sg_rst g then (e, FATE_PRESERVE) else (with_state e ESTABLISHED, FATE_TIMER_EST).

(** filtering_and_updating.c:410-432 tcp_state_machine (and 382-385,
    tcp_v4_fin_v6_fin_rcv_state) *)
Definition tcp_state_machine (hr : bool) (g : segment) (e : sentry) : sentry * fate :=
  if e_state e =? ESTABLISHED then tcp_established_state g e
  else if e_state e =? V4_INIT then tcp_v4_init_state g e
  else if e_state e =? V6_INIT then tcp_v6_init_state g e
  else if e_state e =? V4_FIN_RCV then tcp_v4_fin_rcv_state hr g e
  else if e_state e =? V6_FIN_RCV then tcp_v6_fin_rcv_state hr g e
  else if e_state e =? V4_FIN_V6_FIN_RCV then (e, FATE_PRESERVE)
  else if e_state e =? TRANS then tcp_trans_state g e
  else (e, FATE_RM).
