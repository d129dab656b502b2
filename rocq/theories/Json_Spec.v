(** Independent specification of JSON texts: the grammar of RFC 8259 on octets,
    with what each text means. *)
Require Import Verif.Base Verif.Json_Model.

(** RFC 8259 section 2 *)
Definition ws (l : list Z) : Prop := Forall (fun c => c = 32 \/ c = 9 \/ c = 10 \/ c = 13) l.

Definition digit (c : Z) : Prop := 48 <= c <= 57.
Definition hexd (c v : Z) : Prop :=
  (48 <= c <= 57 /\ v = c - 48) \/ (65 <= c <= 70 /\ v = c - 55) \/ (97 <= c <= 102 /\ v = c - 87).
Definition hex4 (a b c d x : Z) : Prop :=
  exists h i j k, hexd a h /\ hexd b i /\ hexd c j /\ hexd d k /\ x = 4096 * h + 256 * i + 16 * j + k.

(** RFC 3629 *)
Definition utf8 (x : Z) : list Z :=
  if x <? 128 then [x]
  else if x <? 2048 then [192 + x / 64; 128 + x mod 64]
  else if x <? 65536 then [224 + x / 4096; 128 + x / 64 mod 64; 128 + x mod 64]
  else [240 + x / 262144; 128 + x / 4096 mod 64; 128 + x / 64 mod 64; 128 + x mod 64].

(** Section 7: one character, and what it stands for. A lone half of a surrogate
    pair and the character NUL have no meaning as (C) strings. *)
Inductive jchar : list Z -> list Z -> Prop :=
| ch_plain : forall c, 32 <= c <= 255 -> c <> 34 -> c <> 92 -> jchar [c] [c]
| ch_escape : forall x y, In (x, y) [(34, 34); (92, 92); (47, 47); (98, 8); (102, 12); (110, 10); (114, 13); (116, 9)] ->
    jchar [92; x] [y]
| ch_u : forall a b c d x, hex4 a b c d x -> 0 < x -> ~ (0xD800 <= x <= 0xDFFF) -> jchar [92; 117; a; b; c; d] (utf8 x)
| ch_pair : forall a b c d x a' b' c' d' x', hex4 a b c d x -> hex4 a' b' c' d' x' ->
    0xD800 <= x <= 0xDBFF -> 0xDC00 <= x' <= 0xDFFF ->
    jchar [92; 117; a; b; c; d; 92; 117; a'; b'; c'; d'] (utf8 (65536 + 1024 * (x - 0xD800) + (x' - 0xDC00))).

Inductive jchars : list Z -> list Z -> Prop :=
| chs_nil : jchars [] []
| chs_cons : forall a m s t, jchar a m -> jchars s t -> jchars (a ++ s) (m ++ t).

Definition jstring (src val : list Z) : Prop := exists s, jchars s val /\ src = 34 :: s ++ [34].

(** Section 6: sign, integer, fraction and exponent *)
Definition dec (d : list Z) : Z := fold_left (fun n c => 10 * n + (c - 48)) d 0.
Definition jint (d : list Z) : Prop := d = [48] \/ exists c d', d = c :: d' /\ 49 <= c <= 57 /\ Forall digit d'.
Definition jfrac (src d : list Z) : Prop := (src = [] /\ d = []) \/ (src = 46 :: d /\ d <> [] /\ Forall digit d).
Definition jexp (src : list Z) (e : Z) : Prop :=
  (src = [] /\ e = 0) \/
  exists c sg s d, (c = 101 \/ c = 69) /\ (sg = [] /\ s = 1 \/ sg = [43] /\ s = 1 \/ sg = [45] /\ s = -1) /\
    d <> [] /\ Forall digit d /\ src = c :: sg ++ d /\ e = s * dec d.

(** [e] below is the exponent that is written; it must fit in an int for the
    parser to be able to read it. *)
Inductive jnumber : list Z -> json -> Z -> Prop :=
| jn : forall (neg : bool) i fs f es e, jint i -> jfrac fs f -> jexp es e ->
    jnumber ((if neg then [45] else []) ++ i ++ fs ++ es) (JNum neg (dec (i ++ f)) (e - Z.of_nat (length f))) e.

(** Sections 3, 4 and 5. *)
Inductive jtext : json -> list Z -> Prop :=
| jt_null : jtext JNull [110; 117; 108; 108]
| jt_false : jtext JFalse [102; 97; 108; 115; 101]
| jt_true : jtext JTrue [116; 114; 117; 101]
| jt_num : forall v s e, jnumber s v e -> Z.abs e < 2 ^ 31 -> jtext v s
| jt_str : forall v s, jstring s v -> jtext (JStr v) s
| jt_arr0 : forall w, ws w -> jtext (JArr []) (91 :: w ++ [93])
| jt_arr : forall l s, jitems l s -> jtext (JArr l) (91 :: s ++ [93])
| jt_obj0 : forall w, ws w -> jtext (JObj []) (123 :: w ++ [125])
| jt_obj : forall l s, jmembers l s -> jtext (JObj l) (123 :: s ++ [125])
with jitems : list json -> list Z -> Prop :=
| ji_one : forall a v s b, ws a -> jtext v s -> ws b -> jitems [v] (a ++ s ++ b)
| ji_more : forall a v s b l t, ws a -> jtext v s -> ws b -> jitems l t -> jitems (v :: l) (a ++ s ++ b ++ 44 :: t)
with jmembers : list (list Z * json) -> list Z -> Prop :=
| jm_one : forall a n k b c v s d, ws a -> jstring k n -> ws b -> ws c -> jtext v s -> ws d ->
    jmembers [(n, v)] (a ++ k ++ b ++ 58 :: c ++ s ++ d)
| jm_more : forall a n k b c v s d l t, ws a -> jstring k n -> ws b -> ws c -> jtext v s -> ws d -> jmembers l t ->
    jmembers ((n, v) :: l) (a ++ k ++ b ++ 58 :: c ++ s ++ d ++ 44 :: t).

Definition json_text (v : json) (t : list Z) : Prop := exists a s b, ws a /\ jtext v s /\ ws b /\ t = a ++ s ++ b.

(** ** Texts that are safe to parse, valid or not *)

(** From left to right, every backslash has something after it, and every \u has
    four hexadecimal digits. *)
Inductive escapes_ok : list Z -> Prop :=
| eo_nil : escapes_ok []
| eo_char : forall c s, c <> 92 -> escapes_ok s -> escapes_ok (c :: s)
| eo_escape : forall c s, c <> 0 -> c <> 117 -> escapes_ok s -> escapes_ok (92 :: c :: s)
| eo_u : forall a b c d x s, hex4 a b c d x -> escapes_ok s -> escapes_ok (92 :: 117 :: a :: b :: c :: d :: s).

(** No exponent has more than nine digits. *)
Definition short_exponents (t : list Z) : Prop :=
  forall a c sg d r, t = a ++ c :: sg ++ d ++ r -> (c = 101 \/ c = 69) -> (sg = [] \/ sg = [43] \/ sg = [45]) ->
    Forall digit d -> (length d <= 9)%nat.
