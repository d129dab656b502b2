(** What session synchronisation should do, independently of the code. *)
Require Import Verif.Base Verif.Addr_Model Verif.Pool4_Model Verif.Fsm_Model Verif.Bib_Model Verif.Joold_Model.

Section Queue.
Context {A : Type}.

(** The sessions an operation wants sent, and those an outcome takes from the queue. *)
Definition offered (op : jop A) : list A :=
  match op with JAdd s _ => [s] | JAdvertise l _ => l | JAck | JClean => [] end.
Definition batch (o : outcome A) : list A := match o with Quiet => [] | Sent l | Lost l => l end.

(** Whether they are let into the queue: a single session if there is space left
    or an advertisement is under way, an advertisement if none is under way. *)
Definition admits (q : jq A) (e : jev A) : bool :=
  j_enabled (v_cfg e) &&
  match v_op e with
  | JAdd _ mem => mem && (q_ad q || (Z.of_nat (length (q_list q)) <? j_capacity (v_cfg e)))
  | JAdvertise _ mem => mem && negb (q_ad q)
  | JAck | JClean => true
  end.
Definition entered (x : jq A * jev A * outcome A) : list A :=
  let '(q, e, _) := x in if admits q e then offered (v_op e) else [].
Definition left (x : jq A * jev A * outcome A) : list A := let '(_, _, o) := x in batch o.

(** All sessions a history offers; there are fewer than 2^32 (the queue's counter
    has 32 bits), and the packets are allowed to have at least one session. *)
Definition all_offered (h : list (jev A)) : list A := flat_map (fun e => offered (v_op e)) h.
Definition sane (h : list (jev A)) : Prop :=
  Z.of_nat (length (all_offered h)) < 2^32 /\ Forall (fun e => 1 <= j_max (v_cfg e) < 2^32) h.

(** The deadline that [c] sets has passed at [now], counting since [since]. *)
Definition overdue (c : jcfg) (since now : Z) : Prop :=
  time_before (u64 (since + msecs_to_jiffies (j_hz c) (j_deadline c))) now = true.

(** An ack that counts. *)
Definition acks (e : jev A) : Prop := v_op e = JAck /\ j_enabled (v_cfg e) = true.

Definition is_advertise (e : jev A) : bool := match v_op e with JAdvertise _ _ => true | _ => false end.

End Queue.

(** A session that can exist in the BIB of an instance whose pool6 is [pool6]. *)
Definition is_ta6 (a : ta) : Prop := 0 <= fst a < 2^128 /\ 0 <= snd a < 2^16.
Definition is_ta4 (a : ta) : Prop := 0 <= fst a < 2^32 /\ 0 <= snd a < 2^16.
Definition timer_fits (p : proto) (k : timer) : Prop :=
  match p with TCP => k <> T_BAD | UDP | ICMP => k = T_EST | OTHER => False end.
Definition good_session (pool6 : prefix6) (p : proto) (e : sentry) : Prop :=
  is_ta6 (e_src6 e) /\ is_ta4 (e_src4 e) /\ is_ta4 (e_dst4 e) /\
  rfc6052_4to6 pool6 (fst (e_dst4 e)) = Some (fst (e_dst6 e)) /\
  snd (e_dst6 e) = match p with ICMP => snd (e_src6 e) | _ => snd (e_dst4 e) end /\
  0 <= e_state e <= 6 /\ timer_fits p (e_timer e).
Definition same_session (e e' : sentry) : Prop :=
  e_src6 e' = e_src6 e /\ e_dst6 e' = e_dst6 e /\ e_src4 e' = e_src4 e /\ e_dst4 e' = e_dst4 e /\
  e_state e' = e_state e /\ e_timer e' = e_timer e.

(** The jiffy a session dies, in a table configured with [c]. *)
Definition dies (c : cfg) (p : proto) (e : sentry) : Z := u64 (e_time e + get_timeout c p (e_timer e)).
