(** C79: what the JSON parser of the configuration files makes of a text. *)
Require Import Verif.Base Verif.Json_Model Verif.Json_Spec Verif.Json_Proofs Verif.Json_Safety.

(** A text of RFC 8259 becomes the value it stands for. *)
Theorem C79_valid : forall v t, json_text v t -> cJSON_Parse (t ++ [0]) = POk v.
Proof. exact text_ok. Qed.
Print Assumptions C79_valid.

(** The flags and integers that the rest of Jool reads: an unsigned integer is there
    if and only if the number is between 0 and 2^32 - 1, and it is the number without
    its fraction.  (m * 10^e is written with the power on the side where it is whole.) *)
Theorem C79_unsigned : forall neg m e, 0 <= m ->
  (forall u, num_uint neg m e = Some u ->
     0 <= u < 2 ^ 32 /\ (neg = true -> u = 0) /\
     u * 10 ^ (Z.max 0 (- e)) <= m * 10 ^ (Z.max 0 e) < (u + 1) * 10 ^ (Z.max 0 (- e))) /\
  (num_uint neg m e = None ->
     (neg = true /\ 0 < m) \/ (neg = false /\ (2 ^ 32 - 1) * 10 ^ (Z.max 0 (- e)) < m * 10 ^ (Z.max 0 e))).
Proof.
  intros neg m e Hm. unfold num_uint. destruct neg.
  - destruct (m =? 0) eqn:E.
    + apply Z.eqb_eq in E. subst m. split; [|discriminate]. intros u [= <-]. split; [lia|]. split; [reflexivity|].
      pose proof (Z.pow_pos_nonneg 10 (Z.max 0 (- e)) ltac:(lia) ltac:(lia)). lia.
    + split; [discriminate|]. intros _. left. lia.
  - unfold num_le, whole. destruct (0 <=? e) eqn:E.
    + apply Z.leb_le in E. rewrite (Z.max_r 0 e) by lia. rewrite (Z.max_l 0 (- e)) by lia. rewrite !Z.pow_0_r.
      pose proof (Z.pow_nonneg 10 e ltac:(lia)) as P. assert (0 <= m * 10 ^ e) by (apply Z.mul_nonneg_nonneg; assumption).
      destruct (m * 10 ^ e <=? 2 ^ 32 - 1) eqn:L.
      * apply Z.leb_le in L. split; [|discriminate]. intros u [= <-]. split; [lia|]. split; [discriminate|]. lia.
      * apply Z.leb_gt in L. split; [discriminate|]. intros _. right. split; [reflexivity|]. lia.
    + apply Z.leb_gt in E. rewrite (Z.max_l 0 e) by lia. rewrite (Z.max_r 0 (- e)) by lia. rewrite Z.pow_0_r, Z.mul_1_r.
      pose proof (Z.pow_pos_nonneg 10 (- e) ltac:(lia) ltac:(lia)) as P. set (k := 10 ^ (- e)) in *.
      destruct (m <=? (2 ^ 32 - 1) * k) eqn:L.
      * apply Z.leb_le in L. split; [|discriminate]. intros u [= <-]. pose proof (Z.div_mod m k ltac:(lia)) as D.
        pose proof (Z.mod_pos_bound m k P). assert (m / k <= 2 ^ 32 - 1) by (apply Z.div_le_upper_bound; lia).
        assert (0 <= m / k) by (apply Z.div_pos; lia). split; [lia|]. split; [discriminate|]. lia.
      * apply Z.leb_gt in L. split; [discriminate|]. intros _. right. split; [reflexivity|]. exact L.
Qed.
Print Assumptions C79_unsigned.

(** Full statement: no text (octets without a NUL inside, one after) makes the parser
    read or write outside of its buffers, overflow an integer, or not end.  It is
    false (below).  What holds: it is so for all texts, valid or not, in which every
    backslash has a character after it, every \u has four digits, and no exponent has
    more than nine digits. *)
Theorem C79_safe_partial : forall t, escapes_ok t -> short_exponents t ->
  (exists v, cJSON_Parse (t ++ [0]) = POk v) \/ cJSON_Parse (t ++ [0]) = PFail.
Proof. exact parse_fine. Qed.
Print Assumptions C79_safe_partial.

Definition octets (t : list Z) : Prop := Forall (fun c => 0 < c < 256) t.

(** A string that ends right after a u of an escape: the loop that counts stops at the
    quote, the one that copies jumps over it, and writes after the end of what it
    allocated. *)
Theorem C79_safe_refuted :
  (exists t, octets t /\ cJSON_Parse (t ++ [0]) = PBad OverWrite) /\
  (exists t, octets t /\ cJSON_Parse (t ++ [0]) = PBad OverRead) /\
  (exists t, octets t /\ cJSON_Parse (t ++ [0]) = PBad IntOverflow).
Proof.
  split; [|split].
  - exists ([34; 92; 117; 34; 97; 97; 97; 97; 97; 97; 97; 97; 34]). split; [repeat constructor|vm_compute; reflexivity].
  - exists [34; 92]. split; [repeat constructor|vm_compute; reflexivity].
  - exists [49; 101; 50; 49; 52; 55; 52; 56; 51; 54; 52; 56]. split; [repeat constructor|vm_compute; reflexivity].
Qed.
Print Assumptions C79_safe_refuted.

(** Not only JSON is accepted: a lone minus sign is the number minus zero. *)
Theorem C79_rejects_refuted :
  exists t, octets t /\ (exists v, cJSON_Parse (t ++ [0]) = POk v) /\ ~ (exists v, json_text v t).
Proof.
  exists [45]. split; [repeat constructor|]. split; [eexists; vm_compute; reflexivity|].
  intros (v & a & s & b & Ha & Hs & Hb & E).
  destruct a as [|x a]; [|cbn in E; injection E as <- _; inversion Ha; subst; lia]. cbn in E.
  assert (Es : s = [45]).
  { destruct (jtext_head v s Hs) as (c & q & -> & _). cbn in E. injection E as <- E. destruct q; [reflexivity|discriminate E]. }
  subst s. clear - Hs. remember [45] as s eqn:Es. destruct Hs as [| | |v s e H _|v s H|w H|l s H|w H|l s H]; try discriminate Es.
  - destruct H as [neg i fs f es e Hi _ _].
    destruct Hi as [->|(c & d & -> & Hc & _)]; destruct neg; cbn in Es; try discriminate Es. injection Es as -> _. lia.
  - destruct H as (u & _ & ->). discriminate Es.
Qed.
Print Assumptions C79_rejects_refuted.

(** [ {"k": [-2.5e3, "é\n"]} ] *)
Example C79_example :
  exists t v, json_text v t /\ length t = 27%nat /\
    v = JObj [([107], JArr [JNum true 25 2; JStr [195; 169; 10]])] /\ cJSON_Parse (t ++ [0]) = POk v.
Proof.
  set (num := [45; 50; 46; 53; 101; 51]). set (str := [34; 92; 117; 48; 48; 101; 57; 92; 110; 34]).
  assert (N : jtext (JNum true 25 2) num).
  { apply (jt_num _ _ 3); [|reflexivity]. apply (jn true [50] [46; 53] [53] [101; 51] 3).
    - right. exists 50, []. split; [reflexivity|]. split; [lia|constructor].
    - right. split; [reflexivity|]. split; [discriminate|]. constructor; [unfold digit; lia|constructor].
    - right. exists 101, [], 1, [51]. split; [auto|]. split; [auto|]. split; [discriminate|].
      split; [constructor; [unfold digit; lia|constructor]|]. split; reflexivity. }
  assert (S : jtext (JStr [195; 169; 10]) str).
  { apply jt_str. exists [92; 117; 48; 48; 101; 57; 92; 110]. split; [|reflexivity].
    apply (chs_cons [92; 117; 48; 48; 101; 57] [195; 169] [92; 110] [10]).
    - apply (ch_u 48 48 101 57 233); [|lia|lia]. exists 0, 0, 14, 9. unfold hexd. lia.
    - apply (chs_cons [92; 110] [10] [] []); [|constructor]. apply ch_escape. cbn. tauto. }
  assert (A : jtext (JArr [JNum true 25 2; JStr [195; 169; 10]]) (91 :: (num ++ [44; 32] ++ str) ++ [93])).
  { apply jt_arr. apply (ji_more [] _ num [] [JStr [195; 169; 10]] (32 :: str)); [constructor|exact N|constructor|].
    replace (32 :: str) with ([32] ++ str ++ []) by reflexivity.
    apply ji_one; [constructor; [auto|constructor]|exact S|constructor]. }
  assert (O : jtext (JObj [([107], JArr [JNum true 25 2; JStr [195; 169; 10]])])
                (123 :: ([34; 107; 34] ++ [58; 32] ++ 91 :: (num ++ [44; 32] ++ str) ++ [93]) ++ [125])).
  { apply jt_obj.
    replace ([34; 107; 34] ++ [58; 32] ++ 91 :: (num ++ [44; 32] ++ str) ++ [93])
      with ([] ++ [34; 107; 34] ++ [] ++ 58 :: [32] ++ (91 :: (num ++ [44; 32] ++ str) ++ [93]) ++ []) by reflexivity.
    apply jm_one; [constructor| |constructor|constructor; [auto|constructor]|exact A|constructor].
    exists [107]. split; [|reflexivity]. apply (chs_cons [107] [107] [] []); [|constructor]. apply ch_plain; lia. }
  exists (123 :: ([34; 107; 34] ++ [58; 32] ++ 91 :: (num ++ [44; 32] ++ str) ++ [93]) ++ [125]),
    (JObj [([107], JArr [JNum true 25 2; JStr [195; 169; 10]])]). split; [|split; [|split; [reflexivity|]]].
  - exists [], (123 :: ([34; 107; 34] ++ [58; 32] ++ 91 :: (num ++ [44; 32] ++ str) ++ [93]) ++ [125]), []. split; [constructor|]. split; [exact O|]. split; [constructor|]. rewrite app_nil_r. reflexivity.
  - reflexivity.
  - vm_compute. reflexivity.
Qed.

(** [ ["\n",1e2 ], which is not JSON *)
Example C79_safe_example :
  escapes_ok [91; 34; 92; 110; 34; 44; 49; 101; 50] /\ short_exponents [91; 34; 92; 110; 34; 44; 49; 101; 50] /\
  cJSON_Parse [91; 34; 92; 110; 34; 44; 49; 101; 50; 0] = PFail.
Proof.
  split; [|split; [|vm_compute; reflexivity]].
  - apply eo_char; [lia|]. apply eo_char; [lia|]. apply eo_escape; [lia|lia|]. repeat (apply eo_char; [lia|]). constructor.
  - intros a c sg d r E _ _ _. apply (f_equal (@length Z)) in E. rewrite !app_length in E. cbn [length] in E. rewrite !app_length in E. lia.
Qed.

(** 1.5, 4294967295 and 4294967296 *)
Example C79_unsigned_example :
  num_uint false 15 (-1) = Some 1 /\ num_uint false 4294967295 0 = Some 4294967295 /\ num_uint false 4294967296 0 = None.
Proof. repeat split. Qed.
