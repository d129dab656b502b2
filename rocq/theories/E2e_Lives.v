(** * C88, C89: the life of a stateful translator from its start *)
Require Import Verif.Base Verif.Addr_Model Verif.Addr_Spec Verif.Addr_Properties Verif.Rtrie_Model Verif.Pool4_Model Verif.Fsm_Model Verif.Bib_Model
  Verif.Bib_Inv Verif.Bib_Find Verif.Bib_Add Verif.Bib_Hist Verif.Bib_Time Verif.Bib_Spec Verif.Bib_Properties Verif.Nat64_Model Verif.Nat64_Spec Verif.Nat64_Properties Verif.Nat64_Errors Verif.Nat64_Safe Verif.Nat64_Pool4.
Require Import Verif.Csum_Model Verif.Csum_Spec Verif.Csum_Proofs Verif.Csum_Properties Verif.Pkt_Model Verif.Pkt_Spec Verif.Pkt_Proofs Verif.Pkt_Properties
  Verif.Hdr_Model Verif.Hdr_Spec Verif.Hdr_Proofs Verif.Hdr_Properties Verif.Ext_Model Verif.Ext_Spec Verif.Xlat_Model Verif.Xlat_Spec Verif.Xlat_Proofs Verif.Xlat_Proofs46
  Verif.Xlat_Properties Verif.Icmperr_Spec Verif.Icmperr_Properties Verif.Trip_Spec Verif.Trip_Proofs Verif.E2e_Model Verif.E2e_Spec Verif.E2e_Proofs Verif.E2e_Out Verif.E2e_Back Verif.E2e_Hairpin
  Verif.E2e_Properties Verif.E2e_Pool4 Verif.E2e_Cases Verif.E2e_Err4 Verif.E2e_Err6 Verif.E2e_Errors Verif.Bib_Origin Verif.Bib_Keep Verif.E2e_Life Verif.E2e_Keep.
Local Ltac Zify.zify_post_hook ::= idtac.

(** ** C88: addresses come from somewhere *)
(** The operation is about the IPv6 node [a]; it brings the IPv4 address [a] (pool4
    offered it, or an IPv4 node wrote to it, or an operator or instance told it). *)
Definition names6 (o : op) (a : ta) : Prop :=
  match o with
  | OAdd6 _ s6 _ _ _ _ | OTcp6 _ s6 _ _ _ _ _ | OStatic s6 _ _ => a = s6
  | OSync e _ _ => a = e_src6 e
  | _ => False
  end.
Definition names4 (o : op) (a : ta) : Prop :=
  match o with
  | OAdd6 d _ _ _ _ _ | OTcp6 d _ _ _ _ _ _ => exists masks, offers d masks /\ In a (map fst masks)
  | OTcp4 s4 _ _ _ _ _ _ | OStatic _ s4 _ => a = s4
  | OSync e _ _ => a = e_src4 e
  | _ => False
  end.
Theorem C88_origin : forall p h t evs s6 s4 st, wf h -> run p init_table h = Ok (t, evs) -> has t s6 s4 st ->
  (exists c o, In (c, o) h /\ names6 o s6) /\ (exists c o, In (c, o) h /\ names4 o s4).
Proof.
  intros p h t evs s6 s4 st W H (i & b & Hb & <- & <- & _).
  assert (G : forall c o, In (c, o) h -> gives (fun a => exists c o, In (c, o) h /\ names6 o a) (fun a => exists c o, In (c, o) h /\ names4 o a) o).
  { intros c o Hi. pose proof (proj1 (Forall_forall _ _) W (c, o) Hi) as Wo. cbn [snd] in Wo.
    destruct o; cbn [gives wf_op] in *; try exact Logic.I; try (destruct Wo as (ms & Hm)); repeat split; try (exists c; eexists; split; [exact Hi|cbn; reflexivity]).
    all: exists ms; split; [exact Hm|]; intros a Ha; exists c; eexists; split; [exact Hi|]; cbn; eauto. }
  exact (proj1 (good_run _ _ _ _ _ _ _ G (good_init _ _) H) i b Hb).
Qed.
Print Assumptions C88_origin.

(** Whatever octets arrive, the tables a translator comes to have are those the
    theorems on tables and conversations (C86, C87) speak of. *)
Theorem C88_life : forall h s, Forall fair h -> live init_db h = Ok s -> reachable_db s /\ typed_db s.
Proof. intros h s F H. exact (sound_typed _ (live_sound _ _ _ sound_init F H)). Qed.
Print Assumptions C88_life.

(** ** C89: conversations are kept as long as promised *)
(** True except of TCP, where an idle established connection should be kept for
    c_tcp_est, even if c_tcp_trans is less. *)
Theorem C89_kept_partial : forall p h1 h2 t1 e1 t2 e2 S6 S4 D4 t0, p <> OTHER -> wf (h1 ++ h2) -> clock 0 (h1 ++ h2) ->
  run p init_table h1 = Ok (t1, e1) -> run p t1 h2 = Ok (t2, e2) -> t0 <= last_time 0 h1 -> standing p t1 S6 S4 D4 t0 ->
  (forall c o, In (c, o) h2 -> spares p S6 S4 D4 t0 c o) -> standing p t2 S6 S4 D4 t0.
Proof.
  intros p h1 h2 t1 e1 t2 e2 S6 S4 D4 t0 No W C H1 H2 Ht St Sp. apply Forall_app in W. destruct W as [W1 W2].
  assert (C' : clock 0 h1 /\ clock (last_time 0 h1) h2).
  { clear - C. revert C. generalize 0. induction h1 as [|(c, o) h1 IH]; cbn [app clock last_time]; intros T C; [auto|]. destruct (timed o); [destruct C as (A & B & C)|]; destruct (IH _ C); auto. }
  destruct C' as [C1 C2]. destruct (reach_inv p t1 ltac:(exists h1, e1; auto)) as [I1 _]. destruct (reach_inv p t2) as [I2 _].
  { exists (h1 ++ h2), (e1 ++ e2). split; [apply Forall_app; auto|]. clear - H1 H2. revert H1. generalize init_table. revert e1. induction h1 as [|(c, o) h1 IH]; intros e1 t H1; cbn [app run] in *.
    - injection H1 as <- <-. exact H2.
    - destruct (step c p t o) as [[[x t'] ev]| |]; cbn [bind] in *; try discriminate. destruct (run p t' h1) as [[t'' ev']| |] eqn:E; cbn [bind] in *; try discriminate. injection H1 as <- <-.
      rewrite (IH _ _ E). cbn [bind]. rewrite <- app_assoc. reflexivity. }
  apply (stands_standing _ _ _ _ _ _ I2). apply (stands_standing _ _ _ _ _ _ I1) in St.
  exact (stands_run p h2 _ t1 t2 e2 S6 S4 D4 t0 No W2 C2 Ht I1 (run_ord _ _ _ _ _ _ W1 C1 init_inv ord_init H1) Sp H2 St).
Qed.
Print Assumptions C89_kept_partial.

Lemma talk4_det : forall m up pr S D S' D', talk4 m up pr S D -> talk4 m up pr S' D' -> S = S' /\ D = D'.
Proof.
  intros m up pr S D S' D' (A & B & C) (A' & B' & C').
  assert (snd S = snd S' /\ snd D = snd D').
  { destruct C as [(P & -> & E1 & E2)|[(P & -> & E1 & E2)|(P & _ & -> & E1 & E2)]]; destruct C' as [(P' & X & F1 & F2)|[(P' & X & F1 & F2)|(P' & _ & X & F1 & F2)]]; try discriminate X; split; congruence. }
  destruct S, D, S', D'. cbn in *. split; f_equal; intuition congruence.
Qed.

(** A node sends a packet to the other side at any time of the translator's life.
    Whatever the translator then goes through but what takes the mapping away
    ([lets_be]), the answers are delivered.  True except of what C86 leaves out, and
    of TCP other than with the first SYN of a connection. *)
Section Life.
Context (g : xconf) (better : bool) (n n2 : env) (nm : bool) (w : env64) (w2 : env46) (h : list happening) (s : db) (mem : bool) (m : list Z) (lin : nat) (hs : list (Z * nat)) (p : Z) (up pay : nat)
  (pr : proto) (S6 D6 : ta) (o : list Z) (s1 : db) (evs : list ev).
Definition sends : Prop :=
  Forall fair h /\ on_time 0 h /\ end_time 0 h <= n_now n /\ live init_db h = Ok s /\
  usable4 g n /\ pool6_ok g /\ world64 w /\ Forall is_u8 m /\ (lin <= length m)%nat /\
  packet6 m hs p up pay /\ first_piece m hs /\ talk6 m p up pr S6 D6 /\
  (p = 6 -> 5 <= oct m (up + 12) / 16) /\ (20 + (length m - up) <= Z.to_nat 65535)%nat /\
  (pr = TCP -> syn_set m up /\ (forall q, In q (queue (d_tcp s)) -> q_dst6 q <> D6) /\
     forall k x a, rfc6052_6to4 (g_pool6 g) (fst D6) = Some a -> ~ has_session (d_tcp s) S6 k x (a, snd D6)) /\
  core6 g better n n2 nm w w2 s mem m lin = Ok (Packet4 o, s1, evs) /\ canonical g (fst D6).
Lemma sends_stands : sends -> sound_db s /\ exists S4 D4, talk4 o 20 pr S4 D4 /\ pr <> OTHER /\
  forall h' s', Forall fair h' -> on_time (n_now n) h' -> Forall (lets_be pr S6 S4 D4 (n_now n)) h' -> live s1 h' = Ok s' ->
    reachable_db s' /\ typed_db s' /\ stands pr S6 S4 D4 (n_now n) (get_table s' pr).
Proof.
  intros (Fh & Oh & Eh & Lh & Us & P6 & W & F & L & PK & FP & TK & DO & LEN & Ht & H & Ca).
  pose proof (live_sound _ _ _ sound_init Fh Lh) as Sd. split; [exact Sd|]. destruct (sound_typed _ Sd) as [R Ty].
  pose proof (live_punctual _ _ _ _ sound_init Fh Oh punctual_init Lh) as Pu.
  assert (Ht' : pr = TCP -> syn_set m up /\ forall q, In q (queue (d_tcp s)) -> q_dst6 q <> D6) by (intros E; destruct (Ht E) as (A & B & _); auto).
  destruct (there_steps g better n n2 nm w w2 s mem m lin hs p up pay pr S6 D6 o s1 evs R Ty Us P6 W F L PK FP TK DO LEN Ht' H) as (v & ot & (Es & V1 & V2 & V3 & V4 & V5 & V6 & V7) & X & _).
  destruct (there_stands g better n n2 nm w w2 s mem m lin hs p up pay pr S6 D6 o s1 evs R Ty Us P6 W F L PK FP TK DO LEN Ht H) as (S4 & D4 & T4 & St).
  pose proof TK as (TS & TD & TE). destruct (ends_pr 58 _ _ _ _ _ _ _ ltac:(discriminate) TE) as (No & _). destruct (ends_u16 _ _ _ _ _ _ _ _ F TE) as [U1 U2].
  exists S4, D4. split; [exact T4|]. split; [exact No|]. intros h' s' Fh' Oh' Le Lh'.
  assert (Sd1 : sound_db s1).
  { apply (sound23 g n s v (Sent Fsm_Model.V4 ot) s1 evs Sd); [congruence|right; congruence| |exact Es]. intros _. rewrite V1, V5. split; [exact Us|]. split; [|exact U1]. rewrite TS. rewrite <- be128_field. apply be128_u128. exact F. }
  assert (Pu1 : punctual (n_now n) s1).
  { intros pr' No'. apply (moved_ord g n (v_fam v) pr' s s1 (end_time 0 h)); [left; exact Us|exact No'|exact R|exact Eh|exact (Pu pr' No')|]. apply (moved23 g n s v (Sent Fsm_Model.V4 ot) s1 evs pr'); [congruence|right; congruence|exact Es]. }
  destruct (sound_typed _ (live_sound _ _ _ Sd1 Fh' Lh')) as [R' Ty']. split; [exact R'|]. split; [exact Ty'|].
  exact (live_stands h' s1 s' (n_now n) pr S6 S4 D4 (n_now n) No Sd1 Fh' Oh' Pu1 ltac:(lia) Le Lh' St).
Qed.
End Life.

Theorem C89_conversation_partial : forall g better n n2 nm w w2 h s mem m lin hs p up pay pr S6 D6 o s1 evs,
  sends g better n n2 nm w w2 h s mem m lin hs p up pay pr S6 D6 o s1 evs ->
  exists S4 D4, talk4 o 20 pr S4 D4 /\
  forall h' s' better' n' w' m' lin' up' pay',
    Forall fair h' -> on_time (n_now n) h' -> Forall (lets_be pr S6 S4 D4 (n_now n)) h' -> live s1 h' = Ok s' ->
    world46 w' up' -> Forall is_u8 m' -> (lin' <= length m')%nat ->
    packet4 m' (oct m' 9) up' pay' -> fr4_offset m' 0 = 0 -> talk4 m' up' pr D4 S4 ->
    (oct m' 9 = 6 -> 5 <= oct m' (up' + 12) / 16) -> (20 <= up')%nat -> options m' up' 20 -> Z.of_nat (length m' - up') <= 65515 ->
    pool4db_contains (g_pool4 g) (n_ifas n') pr (fst S4) (snd S4) = Ok true -> ~ In false (n_al n') ->
    exists r s'' evs', core4 g better' n' w' s' true m' lin' = Ok (r, s'', evs') /\
      match r with
      | Packets6 outs => exists seg', sent6 (tos_of (y_reset w') 0 (oct m' 1)) (oct m' 8 - 1) (fst D6) (fst S6) (proto46 (oct m' 9)) (word m' 4) (fr4_more m' 0) 0 seg' outs
           /\ ends 58 [128; 129] seg' (proto46 (oct m' 9)) 0 pr (snd D6) (snd S6)
           /\ segment46 (y_sum w' = CS_PARTIAL) (Some (snd D6, snd S6)) (fst D4) (fst S4) (fst D6) (fst S6) (oct m' 9) (skipn up' m') seg'
      | Untranslated x => (exists i, In x [XIcmp J46_TTL E_TTL i; XIcmp J46_SRC_ROUTE E_SRC_ROUTE i; XIcmp J_PKT_TOO_BIG E_FRAG_NEEDED i]) \/ (x = XDrop J46_BAD_MTU /\ Z.min (y_mtu w') (y_lim w') < 1280)
      | _ => False
      end.
Proof.
  intros g better n n2 nm w w2 h s mem m lin hs p up pay pr S6 D6 o s1 evs HS.
  destruct (sends_stands _ _ _ _ _ _ _ _ _ _ _ _ _ _ _ _ _ _ _ _ _ _ HS) as (Sd & S4 & D4 & T4 & No & K).
  destruct HS as (Fh & Oh & Eh & Lh & Us & P6 & W & F & L & PK & FP & TK & DO & LEN & Ht & H & Ca). destruct (sound_typed _ Sd) as [R Ty].
  assert (Ht' : pr = TCP -> syn_set m up /\ forall q, In q (queue (d_tcp s)) -> q_dst6 q <> D6) by (intros E; destruct (Ht E) as (A & B & _); auto).
  destruct (C86_answers_partial g better n n2 nm w w2 s mem m lin hs p up pay pr S6 D6 o s1 evs R Ty Us P6 W F L PK FP TK DO LEN Ht' H Ca) as (S4' & D4' & T4' & _ & An).
  destruct (talk4_det _ _ _ _ _ _ _ T4 T4') as [E1 E2]. subst S4' D4'. clear T4'. exists S4, D4. split; [exact T4|].
  intros h' s' better' n' w' m' lin' up' pay' Fh' Oh' Le Lh' W' F' L' PK' FO' TK' DO' U' Op' LEN' Hp' Al'.
  destruct (K h' s' Fh' Oh' Le Lh') as (R' & Ty' & j & u & b & _ & Hj & Hb & B6 & B4 & U4 & _ & Uo & _).
  apply (An better' n' w' s' m' lin' up' pay'); try assumption.
  - exists (s_dst6 u), j, u, b. auto 10.
  - intros E. exists j, u, b. destruct (Uo E) as [Uo' _]. rewrite E in *. auto 10.
Qed.
Print Assumptions C89_conversation_partial.

(** And so are the errors about it. *)
Theorem C89_errors_partial : forall g better n n2 nm w w2 h s mem m lin hs p up pay pr S6 D6 o s1 evs,
  sends g better n n2 nm w w2 h s mem m lin hs p up pay pr S6 D6 o s1 evs ->
  exists S4 D4, talk4 o 20 pr S4 D4 /\
  forall h' s' better' n' w' m' lin' up' q,
    Forall fair h' -> on_time (n_now n) h' -> Forall (lets_be pr S6 S4 D4 (n_now n)) h' -> live s1 h' = Ok s' ->
    world46 w' up' -> Forall is_u8 m' -> (lin' <= length m')%nat ->
    packet4 m' 1 up' q -> icmp4_error_type (oct m' up') -> quotes m' q o -> (q + 28 <= length m')%nat ->
    (p = 6 -> 5 <= oct m' (q + 32) / 16) -> (20 <= up')%nat -> options m' up' 20 -> Z.of_nat (length m') <= 65527 ->
    (96 <= length (y_head w') + (q + 20))%nat -> y_sum w' <> CS_PARTIAL -> (attr4 m' up' <> 0 -> 20 <= attr4 m' up') ->
    pool4db_contains (g_pool4 g) (n_ifas n') pr (fst S4) (snd S4) = Ok true ->
    exists r6 r, rfc6052_4to6 (g_pool6 g) (field m' 12 4) = Some r6 /\ core4 g better' n' w' s' true m' lin' = Ok (r, s', []) /\
      let who := if better' then r6 else fst D6 in
      match r with
      | Packets6 outs => exists e, outs = [e] /\ ipv6_header e 0 (tos_of (y_reset w') 0 (oct m' 1)) (Z.of_nat (length e) - 40) 58 (oct m' 8 - 1) who (fst S6)
          /\ ok6 who (fst S6) 58 (skipn 40 e) /\ becomes rules46 (oct m' up') (oct m' (up' + 1)) (oct e 40) (oct e 41)
          /\ exists inn l3', inner_packet46 (Some (snd S6, snd D6)) (tos_of (y_reset w') 0 (oct m' (q + 1))) (fst S6) (fst D6) m' q l3' inn
             /\ ends 58 [128; 129] inn p l3' pr (snd S6) (snd D6) /\ carried46 m' up' 20 l3' inn e
      | Untranslated x => (exists i, In x [XIcmp J46_TTL E_TTL i; XIcmp J46_SRC_ROUTE E_SRC_ROUTE i]) \/ exists j, x = XDrop j
      | _ => False
      end.
Proof.
  intros g better n n2 nm w w2 h s mem m lin hs p up pay pr S6 D6 o s1 evs HS.
  destruct (sends_stands _ _ _ _ _ _ _ _ _ _ _ _ _ _ _ _ _ _ _ _ _ _ HS) as (Sd & S4 & D4 & T4 & No & K).
  destruct HS as (Fh & Oh & Eh & Lh & Us & P6 & W & F & L & PK & FP & TK & DO & LEN & Ht & H & Ca). destruct (sound_typed _ Sd) as [R Ty].
  assert (Ht' : pr = TCP -> syn_set m up /\ forall q, In q (queue (d_tcp s)) -> q_dst6 q <> D6) by (intros E; destruct (Ht E) as (A & B & _); auto).
  destruct (C87_sent_partial g better n n2 nm w w2 s mem m lin hs p up pay pr S6 D6 o s1 evs R Ty Us P6 W F L PK FP TK DO LEN Ht' H Ca) as (S4' & D4' & T4' & An).
  destruct (talk4_det _ _ _ _ _ _ _ T4 T4') as [E1 E2]. subst S4' D4'. clear T4'. exists S4, D4. split; [exact T4|].
  intros h' s' better' n' w' m' lin' up' q Fh' Oh' Le Lh' W' F' L' PK' ER Qu Q28 DO' U' Op' LEN' HR NP AT Hp.
  destruct (K h' s' Fh' Oh' Le Lh') as (R' & Ty' & j & u & b & _ & Hj & Hb & B6 & B4 & _).
  apply (An better' n' w' s' m' lin' up' q (b_static b)); try assumption. exists (s_bib u), b. auto.
Qed.
Print Assumptions C89_errors_partial.

(** ** Cases *)
(** Garbage and an answer to nobody arrive first; then C86's node sends its packet,
    at 10 (milliseconds); another node talks to it through the translator at 20, the
    operator removes another mapping, and the table is cleaned as late as promised:
    UDP sessions live for 300 seconds. *)
Definition before : list happening := [From4 nat64 true (world 3) ex_env46 true answer 20; From6 nat64 true (world 4) (world 4) true ex_env64 ex_env46 true [96; 1; 2] 3;
  Table conf UDP (OStatic (5, 5) (6, 6) [])].
Definition now_sent : res (result * db * list ev) :=
  match live init_db before with Ok s => core6 nat64 true (world 10) (world 10) true ex_env64 ex_env46 s true ex_udp6 62 | _ => UB end.
Definition meanwhile (last : Z) : list happening :=
  [From6 nat64 true (world 20) (world 20) true ex_env64 ex_env46 true peer 40; Table conf UDP (ORm (5, 5) (6, 6)); Table conf UDP (OClean last [])].
Definition later (last : Z) : db := match live (state_of now_sent) (meanwhile last) with Ok s => s | _ => init_db end.
Example C88_life_case : Forall fair before /\ Forall fair (meanwhile 300009) /\ on_time 0 before /\ end_time 0 before <= 10 /\ on_time 10 (meanwhile 300009)
  /\ (exists s, live init_db before = Ok s /\ has (d_udp s) (5, 5) (6, 6) true)
  /\ match live (state_of now_sent) (meanwhile 300009) with Ok _ => True | _ => False end.
Proof.
  assert (Fr : forall now, usable4 nat64 (world now)) by exact nat64_usable.
  split. { constructor; [octets|]. constructor; [split; [octets|]; split; [apply Fr|exact nat64_pool6]|]. constructor; [split; [discriminate|]; split; split; rng|constructor]. }
  split. { constructor; [split; [octets|]; split; [apply Fr|exact nat64_pool6]|]. constructor; [split; [discriminate|exact Logic.I]|]. constructor; [split; [discriminate|exact Logic.I]|constructor]. }
  split; [cbn; lia|]. split; [cbn; lia|]. split; [cbn; lia|]. split; [|vm_compute; exact Logic.I].
  eexists. split; [vm_compute; reflexivity|]. exists 0. eexists. vm_compute. repeat split.
Qed.
Example C88_origin_case : exists t evs, wf udp_history /\ run UDP init_table udp_history = Ok (t, evs) /\ has t (Bib_Properties.a6 1, 1000) (four, 5000) false /\ has t (Bib_Properties.a6 3, 7) (four, 9) false.
Proof.
  eexists _, _. split; [wf_history|]. split; [vm_compute; reflexivity|]. split; [exists 2; eexists; split; [reflexivity|repeat split]|]. exists 7. eexists. split; [reflexivity|repeat split].
Qed.

Example C89_conversation_case : exists s s1 evs, sends nat64 true (world 10) (world 10) true ex_env64 ex_env46 before s true ex_udp6 62 [(0, 40%nat); (43, 48%nat)] 17 56 64 UDP A6 D6 sent_out s1 evs
  /\ talk4 sent_out 20 UDP S4 D4 /\ Forall (lets_be UDP A6 S4 D4 10) (meanwhile 300009)
  /\ match core4 nat64 true (world 300020) ex_env46 (later 300009) true answer 20 with Ok (r, _, _) => r
       = Packets6 [[96;0;0;0; 0;12;17;63] ++ ex_dst6 ++ ex_src6 ++ [0;53;4;210;0;12;122;99; 111;107;33;33]] | _ => False end.
Proof.
  exists (match live init_db before with Ok s => s | _ => init_db end), (state_of now_sent). eexists. split.
  { destruct C88_life_case as (A & _ & B & C & _). split; [exact A|]. split; [exact B|]. split; [exact C|]. split; [vm_compute; reflexivity|]. split; [apply nat64_usable|]. split; [exact nat64_pool6|]. split; [exact world64_case|]. split; [octets|].
    split; [vm_compute; lia|]. split; [apply out_packet|]. split; [apply out_packet|]. split; [exact out_talk|]. split; [discriminate|]. split; [apply Nat.leb_le; vm_compute; reflexivity|]. split; [discriminate|]. split; [vm_compute; reflexivity|].
    exists (fst D4). split; [rng|vm_compute; reflexivity]. }
  split; [split; [reflexivity|]; split; [reflexivity|]; right; left; repeat split|]. split; [|vm_compute; reflexivity].
  constructor. { intros d E _. vm_compute in E. injection E as <-. vm_compute. reflexivity. }
  constructor. { intros _. split; [intros [X _]; vm_compute in X; discriminate X|]. split; [intros []|exact Logic.I]. }
  constructor; [|constructor]. intros _. split; [intros []|]. split; [intros []|]. split; [vm_compute; repeat split; congruence|]. vm_compute. split; reflexivity.
Qed.
Print Assumptions C89_conversation_case.
(** A millisecond later it is not kept. *)
Example C89_late_case : match live (state_of now_sent) [Table conf UDP (OClean 300009 [])], live (state_of now_sent) [Table conf UDP (OClean 300010 [])] with
  | Ok s, Ok s' => standing UDP (d_udp s) A6 S4 D4 10 /\ ~ standing UDP (d_udp s') A6 S4 D4 10 /\ lets_be UDP A6 S4 D4 10 (Table conf UDP (OClean 300009 [])) /\ ~ lets_be UDP A6 S4 D4 10 (Table conf UDP (OClean 300010 []))
  | _, _ => False
  end.
Proof.
  destruct (live (state_of now_sent) [Table conf UDP (OClean 300009 [])]) as [s| |] eqn:E; [|vm_compute in E; discriminate..].
  destruct (live (state_of now_sent) [Table conf UDP (OClean 300010 [])]) as [s'| |] eqn:E'; [|vm_compute in E'; discriminate..].
  vm_compute in E. injection E as <-. vm_compute in E'. injection E' as <-. split; [|split; [|split]].
  - exists 1. eexists _, _. vm_compute. split; [reflexivity|]. split; [reflexivity|]. repeat (split; [reflexivity|]). split; [left; reflexivity|]. split; discriminate.
  - intros (j & s & b & H & _). vm_compute in H. destruct j as [|[]|]; discriminate H.
  - intros _. split; [intros []|]. split; [intros []|]. split; [vm_compute; repeat split; congruence|]. vm_compute. split; reflexivity.
  - intros X. destruct (X eq_refl) as (_ & _ & _ & _ & Y). vm_compute in Y. discriminate Y.
Qed.
