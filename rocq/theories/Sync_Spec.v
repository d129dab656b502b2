(** What should become of sessions that are sent from machine to machine,
    independently of how they travel. *)
Require Import Verif.Base Verif.Addr_Model Verif.Rtrie_Model Verif.Pool4_Model Verif.Fsm_Model Verif.Bib_Model Verif.Nat64_Model Verif.Joold_Model Verif.Joold_Spec.

(** Sessions are added to the tables of their protocols, one after another. *)
Fixpoint add_all (c : cfg) (s : db) (now : Z) (l : list ((proto * sentry) * list bool)) : res (db * list ev) :=
  match l with
  | [] => Ok (s, [])
  | (p, e, al) :: l =>
    let! r := bib_add_session c p (get_table s p) e now al in
    let '(_, t, evs) := r in
    let! r := add_all c (set_table s p t) now l in
    let '(s, evs') := r in Ok (s, evs ++ evs')
  end.

(** How long a session has left, in milliseconds, for jiffies of [d] milliseconds *)
Definition left_ms (d now : Z) (e : sentry) : Z := d * Z.max 0 (u64 (e_time e + e_timeout e) - now).

(** [y] is the session [x], which has as long left at [now2], in a table configured with [c], as [x] has at [now1] (rounded up to
    jiffies of the receiver). *)
Definition arrives (c : cfg) (d now1 now2 : Z) (x y : proto * sentry) : Prop :=
  fst y = fst x /\ same_session (snd x) (snd y) /\ e_stored (snd y) = false /\
  exists wait, dies c (fst y) (snd y) = u64 (now2 + wait) /\ left_ms d now1 (snd x) <= c_hz c * wait < left_ms d now1 (snd x) + c_hz c.

(** Sessions that any machine of the network may ask to be added *)
Definition plausible (pool6 : prefix6) (x : proto * sentry) : Prop :=
  let '(p, e) := x in
  p <> OTHER /\ (p = TCP -> e_timer e <> T_BAD) /\ 0 <= e_state e <= 7 /\ e_stored e = false /\
  is_ta6 (e_src6 e) /\ is_ta4 (e_src4 e) /\ is_ta4 (e_dst4 e) /\ rfc6052_4to6 pool6 (fst (e_dst4 e)) = Some (fst (e_dst6 e)) /\
  snd (e_dst6 e) = match p with ICMP => snd (e_src6 e) | _ => snd (e_dst4 e) end.
