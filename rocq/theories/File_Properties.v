(** C80: what reading a configuration file sends to the kernel. *)
Require Import Verif.Base Verif.Addr_Model Verif.Glob_Model Verif.Inst_Model Verif.Str_Model Verif.Json_Model Verif.Json_Spec Verif.Json_Proofs Verif.File_Model Verif.File_Spec Verif.File_Objects Verif.File_Proofs Verif.File_Top.
Require Import String Ascii.
Local Open Scope Z_scope.
Local Open Scope list_scope.

(** A text of RFC 8259 that describes a configuration (numbers being whole, and marks
    less than 2^31) is accepted, and exactly that configuration is sent, in the file's
    order, if the kernel accepts all messages, there is memory, a message has room for one
    entry or for all settings (entries may need many messages). *)
Theorem C80_accepts : forall U xt force arg t v n fw ss, xt = 1 \/ xt = 2 -> generous U ->
  json_text v t -> file_means (exactly (u_inet U)) xt arg v n fw ss ->
  exists w ms, joolnl_file_parse U xt force arg t = Some (None, w) /\ transmits xt n force ss ms /\ sent w = begins xt n fw :: ms ++ [ends xt n].
Proof.
  intros U xt force arg t v n fw ss X G Ht H. unfold joolnl_file_parse. rewrite (text_ok _ _ Ht). apply exactly_as_read in H.
  destruct (do_parsing_bwd U xt force arg v n fw ss X G H) as (w & ms & E & A & B). exists w, ms. split; [rewrite E; reflexivity|]. split; assumption.
Qed.
Print Assumptions C80_accepts.

(** Full statement: if reading a file succeeds, then the file describes a configuration,
    and that is what was sent.  It is false (below): fractions are dropped, and marks from
    2^31 on become zero.  What holds, whatever the kernel answers and however small the
    messages are: apart from that, the file describes a configuration (every tag known,
    none twice, the mandatory ones there, every value well-formed), and all of it was sent
    once and in order, between the messages that begin and end an upload. *)
Theorem C80_success_partial : forall U xt force arg t w, xt = 1 \/ xt = 2 -> u_ctrl U = true ->
  joolnl_file_parse U xt force arg t = Some (None, w) ->
  exists v n fw ss ms, cJSON_Parse (t ++ [0]) = POk v /\ file_means (as_read (u_inet U)) xt arg v n fw ss /\
    transmits xt n force ss ms /\ sent w = begins xt n fw :: ms ++ [ends xt n].
Proof.
  intros U xt force arg t w X C H. unfold joolnl_file_parse in H. destruct (cJSON_Parse (t ++ [0])) as [v| | |] eqn:E; try discriminate.
  assert (H' : do_parsing U xt force arg v (World [] 0) = (None, w)) by congruence. destruct (do_parsing_fwd U xt force arg v w X C H') as (n & fw & ss & ms & A & B & D).
  exists v, n, fw, ss, ms. split; [reflexivity|]. split; [exact A|]. split; assumption.
Qed.
Print Assumptions C80_success_partial.

(** Whether or not it succeeds: either nothing was sent, or the beginning of an upload
    first, then parts of it for the same instance, and the end at most once and last; no
    message is sent after one that was not accepted; and the user is told of success if
    and only if the end was accepted. *)
Theorem C80_order : forall U xt force arg t r w, xt = 1 \/ xt = 2 -> u_ctrl U = true ->
  joolnl_file_parse U xt force arg t = Some (r, w) ->
  (r <> None /\ sent w = []) \/
  exists n fw ms fin, sent w = begins xt n fw :: ms ++ fin /\ good_name n /\ (fw = 4 \/ fw = 8) /\
    Forall (fun m => m_xt m = xt /\ m_name m = n /\ m_init m = None /\ m_end m = false) ms /\ (fin = [] \/ fin = [ends xt n]) /\
    (forall p q, sent w = p ++ q -> p <> [] -> q <> [] -> u_kernel U p = OK) /\
    (r = None <-> fin = [ends xt n] /\ u_kernel U (sent w) = OK).
Proof.
  intros U xt force arg t r w X C H. unfold joolnl_file_parse in H. destruct (cJSON_Parse (t ++ [0])) as [v| | |] eqn:E; try discriminate.
  - assert (H' : do_parsing U xt force arg v (World [] 0) = (r, w)) by congruence. pose proof (do_parsing_orderly U xt force arg v X C) as O. rewrite H' in O. exact O.
  - assert (Er : r = Some Bad /\ w = World [] 0) by (split; congruence). destruct Er as [-> ->]. left. split; [discriminate|reflexivity].
Qed.
Print Assumptions C80_order.

(** The name of the instance, as the client's other commands read it from a file *)
Theorem C80_name : forall t l n, json_text (JObj l) t -> has l "instance" (JStr n) -> joolnl_file_get_iname t = GName n.
Proof.
  intros t l n Ht (k & a & b & -> & W & L). unfold joolnl_file_get_iname. rewrite (text_ok _ _ Ht). unfold json_get_iname. clear Ht.
  induction a as [|[k' v'] a IH]; cbn [app find_iname].
  - rewrite (proj2 (case_iff k "instance") W). reflexivity.
  - cbn [app] in L. inversion L as [|? ? L1 L2]; subst. cbn [fst] in L1. rewrite (proj2 (case_false k' "instance") L1). apply IH. exact L2.
Qed.
Print Assumptions C80_name.

(** The text of a file that does not change is read as it is, however many pieces it comes in. *)
Theorem C80_read : forall t reads, List.concat reads = t -> read_loop (List.length t) [] reads = RText t.
Proof.
  intros t reads E. assert (X : forall reads buf, buf ++ List.concat reads = t -> read_loop (List.length t) buf reads = RText t).
  { clear. induction reads as [|r reads IH]; intros buf E; cbn [List.concat] in E.
    - rewrite app_nil_r in E. subst buf. cbn [read_loop]. rewrite Nat.leb_refl, Nat.ltb_irrefl. reflexivity.
    - cbn [read_loop]. assert (Len : (List.length buf + List.length r + List.length (List.concat reads) = List.length t)%nat) by (rewrite <- E, !app_length; lia).
      destruct (List.length t <=? List.length buf)%nat eqn:Lb.
      + apply Nat.leb_le in Lb. replace (List.length t <? List.length buf)%nat with false by (symmetry; apply Nat.ltb_ge; lia).
        destruct r as [|x r]; [|cbn [List.length] in Len; lia]. destruct (List.concat reads) eqn:Ec; [|cbn [List.length] in Len; lia]. cbn [app] in E. rewrite app_nil_r in E. congruence.
      + replace (S (List.length t) <? List.length buf + List.length r)%nat with false by (symmetry; apply Nat.ltb_ge; lia). apply IH. rewrite <- app_assoc. exact E. }
  apply X. exact E.
Qed.
Print Assumptions C80_read.

(** ** Findings *)

(** Any letter is an address. *)
Definition letter (s : list Z) : option Z := match s with [c] => Some c | _ => None end.
Definition inet0 : inet := Inet letter letter (fun a => [a]) (fun a => [a]).
Definition plenty : uenv := UEnv inet0 true (fun _ _ => true) (fun _ _ => true) true (fun _ => true) (fun _ => OK).
Lemma plenty_generous : generous plenty. Proof. repeat split. Qed.

(** As [exactly], but with any mark of 32 bits *)
Definition plainly (N : inet) : reading :=
  Reading (fun s p => str_to_prefix6 N s = Some p) (fun s p => str_to_prefix4 N s = Some p)
    (fun s x => str_to_addr6_port N s = Some x) (fun s x => str_to_addr4_port N s = Some x)
    (fun s x => str_to_port_range s = Some x) (fun s n => str_to_timeout s = Some n) is_number is_number.

Definition q (s : string) : list Z := [34] ++ txt s ++ [34].
(** In these texts, ' stands for the quotation mark. *)
Definition doc (s : string) : list Z := map (fun c => if c =? 39 then 34 else c) (txt s).

(** A mark of 2^31: json2mark() reads the field of the signed integer. *)
Definition marked : list Z := doc "{'instance':'i','framework':'netfilter','pool4':[{'mark':2147483648,'protocol':'TCP','prefix':'b/32'}]}".
Lemma has_here (l : members) (k : string) v a b : l = a ++ (txt k, v) :: b -> lacks (a ++ b) k -> has l k v.
Proof.
  intros E L. exists (txt k), a, b. split; [exact E|]. split; [|exact L]. unfold same_word. clear. induction (txt k) as [|x t IH]; [constructor|]. constructor; [left; reflexivity|exact IH].
Qed.
Lemma lacks_bool (l : members) (k : string) : forallb (fun m => negb (case_eqb (fst m) (txt k))) l = true -> lacks l k.
Proof. intros H. apply Forall_forall. intros m I. rewrite forallb_forall in H. specialize (H m I). apply negb_true_iff in H. apply case_false. exact H. Qed.
Lemma word_refl k : same_word (txt k) k.
Proof. apply case_iff. unfold case_eqb. apply str_eqb_iff. reflexivity. Qed.
Ltac at_ i := match goal with |- has ?l ?k _ => apply (has_here l k _ (firstn i l) (skipn (Datatypes.S i) l)); [reflexivity|apply lacks_bool; vm_compute; reflexivity] end.
Ltac absent := apply lacks_bool; vm_compute; reflexivity.
Ltac once_at i := right; eexists; at_ i.

Definition marked_entry : json := JObj [(txt "mark", JNum false 2147483648 0); (txt "protocol", JStr (txt "TCP")); (txt "prefix", JStr (txt "b/32"))].
Definition marked_value : json := JObj [(txt "instance", JStr (txt "i")); (txt "framework", JStr (txt "netfilter")); (txt "pool4", JArr [marked_entry])].
Lemma marked_parse : cJSON_Parse (marked ++ [0]) = POk marked_value. Proof. vm_compute. reflexivity. Qed.
Lemma marked_means : file_means (plainly inet0) 2 None marked_value (txt "i") 4 [Entries Pool4 [EPool4 2147483648 0 0 0 (P4 98 32) (61001, 65535)]].
Proof.
  eexists. split; [reflexivity|]. split.
  { constructor; [once_at 0%nat|]. constructor; [once_at 1%nat|]. constructor; [left; absent|]. constructor; [once_at 2%nat|]. constructor; [left; absent|constructor]. }
  split; [eexists; split; [at_ 0%nat|eexists; split; reflexivity]|]. split; [split; [cbn; lia|repeat constructor; cbn; lia]|]. split; [discriminate|].
  split; [eexists; split; [at_ 1%nat|eexists; split; [reflexivity|left; split; reflexivity]]|].
  apply s_other; [right; left; apply word_refl|]. apply s_other; [right; right; apply word_refl|].
  eapply s_list; [left; reflexivity|apply word_refl|reflexivity| |constructor]. constructor; [|constructor].
  eexists _, 2147483648, (0, 0), 0, (P4 98 32), (61001, 65535). split; [reflexivity|]. split; [reflexivity|]. split.
  { constructor; [right; eexists; split; [left; reflexivity|apply word_refl]|]. constructor; [right; eexists; split; [right; left; reflexivity|apply word_refl]|].
    constructor; [right; eexists; split; [right; right; left; reflexivity|apply word_refl]|constructor]. }
  split; [left; eexists; split; [at_ 0%nat|split; [|lia]; exists false, 2147483648, 0; split; [reflexivity|split; [lia|reflexivity]]]|].
  split; [right; split; [absent|reflexivity]|]. split; [eexists; split; [at_ 1%nat|eexists; split; [reflexivity|left; split; [apply word_refl|reflexivity]]]|].
  split; [eexists; split; [at_ 2%nat|eexists; split; [reflexivity|vm_compute; reflexivity]]|]. right. split; [absent|reflexivity].
Qed.
Lemma one_chunk {A} : forall (chunks : list (list A)) x, List.concat chunks = [x] -> Forall (fun c => c <> []) chunks -> chunks = [[x]].
Proof.
  intros [|[|y c] chunks] x E F; [discriminate|inversion F; subst; exfalso; auto|]. cbn [List.concat app] in E. injection E as <- E.
  apply app_eq_nil in E as [-> E]. inversion F as [|? ? _ F']; subst. destruct chunks as [|[|z d] chunks]; [reflexivity| |discriminate]. inversion F'; subst. exfalso. auto.
Qed.
Theorem C80_mark_refuted : exists t v n fw ss w, cJSON_Parse (t ++ [0]) = POk v /\ file_means (plainly (u_inet plenty)) 2 None v n fw ss /\
  joolnl_file_parse plenty 2 false None t = Some (None, w) /\
  (exists k, ss = [Entries Pool4 [k]] /\ match k with EPool4 m _ _ _ _ _ => m = 2 ^ 31 | _ => False end) /\
  ~ (exists ms, transmits 2 n false ss ms /\ sent w = begins 2 n fw :: ms ++ [ends 2 n]).
Proof.
  eexists marked, marked_value, _, _, _, _. split; [exact marked_parse|]. split; [exact marked_means|]. split; [vm_compute; reflexivity|].
  split; [eexists; split; [reflexivity|reflexivity]|]. intros (ms & T & E). inversion T as [| |k chunks ss' ms' F T' Ek]; subst.
  apply one_chunk in H; [|exact F]. subst chunks. inversion T'; subst. vm_compute in E. discriminate E.
Qed.
Print Assumptions C80_mark_refuted.

(** An MTU of 1280.5 is accepted. *)
Definition half_byte : list Z := doc "{'instance':'i','framework':'netfilter','global':{'lowest-ipv6-mtu':1280.5}}".
Theorem C80_fraction_refuted : exists t v w, cJSON_Parse (t ++ [0]) = POk v /\ joolnl_file_parse plenty 1 false None t = Some (None, w) /\
  map m_globals (sent w) = [None; Some [(JNLAG_LOWEST_IPV6_MTU, VU32 1280)]; None] /\
  ~ (exists n fw ss, file_means (plainly (u_inet plenty)) 1 None v n fw ss).
Proof.
  eexists half_byte, (JObj [(txt "instance", JStr (txt "i")); (txt "framework", JStr (txt "netfilter")); (txt "global", JObj [(txt "lowest-ipv6-mtu", JNum false 12805 (-1))])]), _.
  split; [vm_compute; reflexivity|]. split; [vm_compute; reflexivity|]. split; [reflexivity|].
  intros (n & fw & ss & l & [= <-] & _ & _ & _ & _ & _ & Hs).
  assert (G : exists gs, settings_mean (plainly inet0) (JObj [(txt "lowest-ipv6-mtu", JNum false 12805 (-1))]) gs).
  { clear - Hs. remember (txt "global", JObj [(txt "lowest-ipv6-mtu", JNum false 12805 (-1))]) as p eqn:Ep.
    assert (X : forall l ss, sections (plainly inet0) 1 l ss -> In p l -> exists gs, settings_mean (plainly inet0) (snd p) gs).
    { clear - Ep; induction 1 as [|n v l ss C L IH|n v l ss gs W Gs L IH|n v l ss t k P js es I W Ev F L IH]; intros J; [destruct J| | |]; (destruct J as [J|J]; [|apply IH; exact J]); rewrite Ep in J |- *; injection J as -> ->; cbn [snd].
      - exfalso. destruct C as [C|[C|C]]; apply case_iff in C; vm_compute in C; discriminate C.
      - exists gs. exact Gs.
      - discriminate. }
    specialize (X _ _ Hs). subst p. apply X. right; right; left; reflexivity. }
  destruct G as (gs & l & [= <-] & L & _). inversion L as [|? ? ? ? C L'|? ? ? ? k id I W Ev L'|? ? ? ? k id t g I W Vg NE L']; subst.
  - apply case_iff in C. vm_compute in C. discriminate C.
  - discriminate.
  - assert (J : In ("lowest-ipv6-mtu"%string, 3, Number) catalogue) by (unfold catalogue; repeat (first [left; reflexivity|right])).
    assert (X := catalogue_one _ _ _ I J W (word_refl "lowest-ipv6-mtu")). injection X as -> -> ->. destruct Vg as (u & [(neg & m & e & [= <- <- <-] & _ & E) _] & _).
    vm_compute (10 ^ Z.max 0 (-1)) in E. vm_compute (10 ^ Z.max 0 (- -1)) in E. clear - E. cbn [Z.opp] in E. lia.
Qed.
Print Assumptions C80_fraction_refuted.

(** The name of the instance can be given as an option, says prepare_instance(), and the
    first pass succeeds; then an upload is begun, and the second pass fails. *)
Theorem C80_option_refuted : exists t n fl v w, cJSON_Parse (t ++ [0]) = POk v /\ prepare_instance (Some n) 1 v = inr (n, fl) /\
  joolnl_file_parse plenty 1 false (Some n) t = Some (Some Bad, w) /\ sent w = [begins 1 n 4].
Proof.
  eexists (doc "{'framework':'netfilter'}"), (txt "i"), _, _, _. split; [vm_compute; reflexivity|]. split; [vm_compute; reflexivity|]. split; vm_compute; reflexivity.
Qed.
Print Assumptions C80_option_refuted.

(** If the attribute does not fit, send_ctrl_msg() reports success: so does the program, though nothing was sent. *)
Theorem C80_room_refuted : exists U t w, u_nest U = true /\ joolnl_file_parse U 1 false None t = Some (None, w) /\ sent w = [].
Proof.
  eexists (UEnv inet0 true (fun _ _ => true) (fun _ _ => true) false (fun _ => true) (fun _ => OK)), (doc "{'instance':'i','framework':'netfilter'}"), _.
  split; [reflexivity|]. split; vm_compute; reflexivity.
Qed.
Print Assumptions C80_room_refuted.

(** Without a string for the name, NULL is dereferenced; after a text that is not JSON, freed memory is printed. *)
Theorem C80_name_refuted : (exists t v, cJSON_Parse (t ++ [0]) = POk v /\ joolnl_file_get_iname t = GNullDeref) /\
  (exists t, joolnl_file_get_iname t = GUseAfterFree).
Proof.
  split; [eexists (doc "{'instance':5}"), _; split; vm_compute; reflexivity|]. exists (doc "{'instance':"). vm_compute. reflexivity.
Qed.
Print Assumptions C80_name_refuted.

(** A file that has become shorter: the loop does not end. Longer, after a short read: octets are written outside of the buffer. *)
Theorem C80_read_refuted : (exists len reads, (List.length (List.concat reads) < len)%nat /\ read_loop len [] reads = RForever) /\
  (exists len reads, Forall (fun r => (List.length r <= len)%nat) reads /\ read_loop len [] reads = ROverWrite).
Proof.
  split; [exists 2%nat, [[1]; []]; split; [cbn; lia|reflexivity]|]. exists 3%nat, [[1; 2]; [3; 4; 5]]. split; [repeat constructor; cbn; lia|reflexivity].
Qed.
Print Assumptions C80_read_refuted.

(** ** Examples *)
Lemma plain_string s : Forall (fun c => 32 <= c <= 255 /\ c <> 34 /\ c <> 92) s -> jstring ([34] ++ s ++ [34]) s.
Proof.
  intros F. exists s. split; [|reflexivity]. induction F as [|c s (A & B & C) F IH]; [constructor|]. change (c :: s) with ([c] ++ s). apply chs_cons; [constructor; assumption|exact IH].
Qed.
Definition plainb (s : list Z) : bool := forallb (fun c => (32 <=? c) && (c <=? 255) && negb (c =? 34) && negb (c =? 92)) s.
Lemma plain_word s : plainb s = true -> jstring ([34] ++ s ++ [34]) s.
Proof. intros H. apply plain_string. apply Forall_forall. intros c I. unfold plainb in H. rewrite forallb_forall in H. specialize (H c I). lia. Qed.
Lemma member_one n v s : plainb (txt n) = true -> jtext v s -> jmembers [(txt n, v)] ([] ++ q n ++ [] ++ 58 :: [] ++ s ++ []).
Proof. intros P J. apply jm_one; try constructor; [|exact J]. apply (plain_word _ P). Qed.
Lemma member_more n v s l t : plainb (txt n) = true -> jtext v s -> jmembers l t -> jmembers ((txt n, v) :: l) ([] ++ q n ++ [] ++ 58 :: [] ++ s ++ [] ++ 44 :: t).
Proof. intros P J M. apply jm_more; try constructor; [| |exact M]; [|exact J]. apply (plain_word _ P). Qed.
Lemma word_text n : plainb (txt n) = true -> jtext (JStr (txt n)) (q n).
Proof. intros P. apply jt_str. apply (plain_word _ P). Qed.

Definition file0 : list Z := doc "{'Instance':'i','framework':'iptables','comment':null,'global':{'lowest-ipv6-mtu':1280,'pool6':null},'eamt':[{'ipv6 prefix':'b/120','ipv4 prefix':'c/24'},{'ipv4 prefix':'d','ipv6 prefix':'e'}]}".
Definition value0 : json :=
  JObj [(txt "Instance", JStr (txt "i")); (txt "framework", JStr (txt "iptables")); (txt "comment", JNull);
        (txt "global", JObj [(txt "lowest-ipv6-mtu", JNum false 1280 0); (txt "pool6", JNull)]);
        (txt "eamt", JArr [JObj [(txt "ipv6 prefix", JStr (txt "b/120")); (txt "ipv4 prefix", JStr (txt "c/24"))];
                           JObj [(txt "ipv4 prefix", JStr (txt "d")); (txt "ipv6 prefix", JStr (txt "e"))]])].
Lemma text0 : json_text value0 file0.
Proof.
  exists [], file0, []. split; [constructor|]. split; [|split; [constructor|symmetry; apply app_nil_r]].
  assert (N : jtext (JNum false 1280 0) [49; 50; 56; 48]).
  { apply (jt_num _ _ 0); [|reflexivity]. apply (jn false [49; 50; 56; 48] [] [] [] 0); [right; exists 49, [50; 56; 48]; split; [reflexivity|split; [lia|]]|left; split; reflexivity|left; split; reflexivity].
    repeat (constructor; [unfold digit; lia|]). constructor. }
  eassert (G : jtext (JObj [(txt "lowest-ipv6-mtu", JNum false 1280 0); (txt "pool6", JNull)]) _) by (apply jt_obj; apply member_more; [reflexivity|exact N|]; apply member_one; [reflexivity|constructor]).
  eassert (E1 : jtext (JObj [(txt "ipv6 prefix", JStr (txt "b/120")); (txt "ipv4 prefix", JStr (txt "c/24"))]) _) by (apply jt_obj; apply member_more; [reflexivity|apply word_text; reflexivity|]; apply member_one; [reflexivity|apply word_text; reflexivity]).
  eassert (E2 : jtext (JObj [(txt "ipv4 prefix", JStr (txt "d")); (txt "ipv6 prefix", JStr (txt "e"))]) _) by (apply jt_obj; apply member_more; [reflexivity|apply word_text; reflexivity|]; apply member_one; [reflexivity|apply word_text; reflexivity]).
  eassert (A : jtext (JArr _) _) by (apply jt_arr; eapply (ji_more [] _ _ []); [constructor|exact E1|constructor|]; eapply (ji_one [] _ _ []); [constructor|exact E2|constructor]).
  eassert (F : jtext value0 _).
  { apply jt_obj. apply member_more; [reflexivity|apply word_text; reflexivity|]. apply member_more; [reflexivity|apply word_text; reflexivity|]. apply member_more; [reflexivity|constructor|].
    apply member_more; [reflexivity|exact G|]. apply member_one; [reflexivity|exact A]. }
  match type of F with jtext _ ?s => replace file0 with s; [exact F|] end. vm_compute. reflexivity.
Qed.
Definition sections0 : list section :=
  [Settings [(JNLAG_LOWEST_IPV6_MTU, VU32 1280); (JNLAG_POOL6, VPrefix6 (Some 0) None)]; Entries Eamt [EEam (P6 98 120) (P4 99 24); EEam (P6 101 128) (P4 100 32)]].
Lemma means0 : file_means (exactly inet0) 1 (Some (txt "i")) value0 (txt "i") 8 sections0.
Proof.
  assert (W : same_word (txt "Instance") "instance") by (apply case_iff; reflexivity).
  assert (HI : has [(txt "Instance", JStr (txt "i")); (txt "framework", JStr (txt "iptables")); (txt "comment", JNull);
        (txt "global", JObj [(txt "lowest-ipv6-mtu", JNum false 1280 0); (txt "pool6", JNull)]);
        (txt "eamt", JArr [JObj [(txt "ipv6 prefix", JStr (txt "b/120")); (txt "ipv4 prefix", JStr (txt "c/24"))];
                           JObj [(txt "ipv4 prefix", JStr (txt "d")); (txt "ipv6 prefix", JStr (txt "e"))]])] "instance" (JStr (txt "i"))).
  { eexists _, [], _. split; [reflexivity|]. split; [exact W|absent]. }
  eexists. split; [reflexivity|]. split.
  { constructor; [right; eexists; exact HI|]. constructor; [once_at 1%nat|]. constructor; [once_at 3%nat|]. constructor; [once_at 4%nat|]. constructor; [left; absent|]. constructor; [left; absent|constructor]. }
  split; [eexists; split; [exact HI|eexists; split; reflexivity]|]. split; [split; [cbn; lia|repeat constructor; cbn; lia]|]. split; [intros a [= <-]; reflexivity|].
  split; [eexists; split; [at_ 1%nat|eexists; split; [reflexivity|right; split; reflexivity]]|].
  apply s_other; [right; left; exact W|]. apply s_other; [right; right; apply word_refl|]. apply s_other; [left; apply word_refl|].
  apply s_global; [apply word_refl| |].
  - eexists. split; [reflexivity|]. split.
    + eapply (sl_value _ _ _ _ _ "lowest-ipv6-mtu" 3 Number); [unfold catalogue; repeat (first [left; reflexivity|right])|apply word_refl| |discriminate|].
      * exists 1280. split; [split; [exists false, 1280, 0; split; [reflexivity|split; [lia|reflexivity]]|lia]|reflexivity].
      * eapply (sl_value _ _ _ _ _ "pool6" 2 Network6); [unfold catalogue; repeat (first [left; reflexivity|right])|apply word_refl|left; split; [left; reflexivity|reflexivity]|discriminate|constructor].
    + apply Forall_forall. intros c I. unfold catalogue in I. cbn [In] in I.
      repeat (destruct I as [<-|I]; [cbn [fst]; first [left; absent|once_at 0%nat|once_at 1%nat]|]). destruct I.
  - eapply s_list; [left; reflexivity|apply word_refl|reflexivity| |constructor]. constructor; [|constructor; [|constructor]].
    + eexists _, (P6 98 120), (P4 99 24). split; [reflexivity|]. split; [reflexivity|]. split.
      { constructor; [right; eexists; split; [left; reflexivity|apply word_refl]|]. constructor; [right; eexists; split; [right; left; reflexivity|apply word_refl]|constructor]. }
      split; [eexists; split; [at_ 0%nat|eexists; split; [reflexivity|vm_compute; reflexivity]]|eexists; split; [at_ 1%nat|eexists; split; [reflexivity|vm_compute; reflexivity]]].
    + eexists _, (P6 101 128), (P4 100 32). split; [reflexivity|]. split; [reflexivity|]. split.
      { constructor; [right; eexists; split; [right; left; reflexivity|apply word_refl]|]. constructor; [right; eexists; split; [left; reflexivity|apply word_refl]|constructor]. }
      split; [eexists; split; [at_ 1%nat|eexists; split; [reflexivity|vm_compute; reflexivity]]|eexists; split; [at_ 0%nat|eexists; split; [reflexivity|vm_compute; reflexivity]]].
Qed.
(** A file with settings and two entries: what is needed for C80_accepts, and what C80_order and C80_success_partial are about *)
Example C80_example : exists w, generous plenty /\ json_text value0 file0 /\ file_means (exactly (u_inet plenty)) 1 (Some (txt "i")) value0 (txt "i") 8 sections0 /\
  joolnl_file_parse plenty 1 true (Some (txt "i")) file0 = Some (None, w) /\
  map m_eamt (sent w) = [None; None; Some [EEam (P6 98 120) (P4 99 24); EEam (P6 101 128) (P4 100 32)]; None] /\ joolnl_file_get_iname file0 = GName (txt "i").
Proof.
  eexists. split; [exact plenty_generous|]. split; [exact text0|]. split; [exact means0|]. split; [vm_compute; reflexivity|]. split; vm_compute; reflexivity.
Qed.
(** The same with messages of one entry; and with a kernel that refuses the third message *)
Example C80_small_example :
  (exists w, joolnl_file_parse (UEnv inet0 true (fun l _ => match l with [] => true | _ => false end) (fun _ _ => true) true (fun _ => true) (fun _ => OK)) 1 true None file0 = Some (None, w) /\
     map m_eamt (sent w) = [None; None; Some [EEam (P6 98 120) (P4 99 24)]; Some [EEam (P6 101 128) (P4 100 32)]; None]) /\
  (exists w, joolnl_file_parse (UEnv inet0 true (fun _ _ => true) (fun _ _ => true) true (fun _ => true) (fun ms => if (List.length ms =? 3)%nat then Err EEXIST else OK)) 1 true None file0 = Some (Some (Kernel EEXIST), w) /\
     map m_end (sent w) = [false; false; false]).
Proof. split; (eexists; split; [vm_compute; reflexivity|vm_compute; reflexivity]). Qed.
Example C80_read_example : read_loop 3 [] [[1]; []; [2; 3]] = RText [1; 2; 3]. Proof. reflexivity. Qed.
