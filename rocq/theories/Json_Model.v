(** The JSON parser of the userspace client, usr/util/cJSON.c.

    A pointer into the text is what is left of it: the octets from there to the
    end of the buffer, the terminator included.  Reading from the empty list is
    reading past the buffer.  Simplifications: malloc() succeeds; octets are
    0..255 (the C code compares plain chars with ASCII characters only); strings
    are shorter than INT_MAX; numbers are kept as they are written, a mantissa
    and a power of ten, and products by powers of ten do not round (doubles are
    exact for integers up to 2^53, which is what the configuration has). *)
Require Import Verif.Base.

(** What went wrong with the memory, or with an int. *)
Inductive bad := OverRead | OverWrite | IntOverflow.

Inductive pres (A : Type) :=
| POk (a : A)
| PFail           (* the C code returns 0 *)
| PBad (b : bad)  (* undefined behaviour *)
| PFuel.
Arguments POk {A} a.
Arguments PFail {A}.
Arguments PBad {A} b.
Arguments PFuel {A}.

Definition pbind {A B} (x : pres A) (f : A -> pres B) : pres B :=
  match x with POk a => f a | PFail => PFail | PBad b => PBad b | PFuel => PFuel end.
Notation "'let?' x := a 'in' b" := (pbind a (fun x => b)) (at level 200, x pattern, b at level 200).

(** cJSON.h:45-77 struct cJSON, without the links between siblings. [JNum neg m e]
    is (-1)^neg * m * 10^e. *)
Inductive json :=
| JNull | JFalse | JTrue
| JNum (neg : bool) (m e : Z)
| JStr (s : list Z)
| JArr (l : list json)
| JObj (l : list (list Z * json)).

Definition rd (p : list Z) : pres Z := match p with [] => PBad OverRead | c :: _ => POk c end.

Definition is_digit (c : Z) : bool := (48 <=? c) && (c <=? 57).

(** cJSON.c:327-332 skip *)
Fixpoint skip (p : list Z) : pres (list Z) :=
  match p with
  | [] => PBad OverRead
  | c :: p' => if negb (c =? 0) && (c <=? 32) then skip p' else POk p
  end.

(** strncmp(p, w, strlen(w)) == 0 *)
Fixpoint starts (w p : list Z) : pres bool :=
  match w with
  | [] => POk true
  | x :: w' => match p with [] => PBad OverRead | c :: p' => if c =? x then starts w' p' else POk false end
  end.

(** cJSON.c:124-126 and 132-135: the digits of the mantissa, and how many there are *)
Fixpoint mantissa (p : list Z) (n k : Z) : pres (Z * Z * list Z) :=
  match p with
  | [] => PBad OverRead
  | c :: p' => if is_digit c then mantissa p' (10 * n + (c - 48)) (k + 1) else POk (n, k, p)
  end.

(** cJSON.c:147-149: those of the exponent, an int *)
Fixpoint exponent (p : list Z) (n : Z) : pres (Z * list Z) :=
  match p with
  | [] => PBad OverRead
  | c :: p' =>
    if is_digit c then
      if 2 ^ 31 <=? 10 * n + (c - 48) then PBad IntOverflow else exponent p' (10 * n + (c - 48))
    else POk (n, p)
  end.

(** cJSON.c:118-127, the integer part *)
Definition int_part (p : list Z) : pres (Z * list Z) :=
  let? c := rd p in
  let p := if c =? 48 then tl p else p in
  let? c := rd p in
  if (49 <=? c) && (c <=? 57) then let? r := mantissa p 0 0 in POk (fst (fst r), snd r) else POk (0, p).
(** cJSON.c:129-136, the fraction: the mantissa goes on *)
Definition frac_part (p : list Z) (n : Z) : pres (Z * Z * list Z) :=
  let? c := rd p in
  if c =? 46 then
    let? d := rd (tl p) in
    if is_digit d then mantissa (tl p) n 0 else POk (n, 0, p)
  else POk (n, 0, p).
(** cJSON.c:138-150 *)
Definition exp_part (p : list Z) : pres (Z * list Z) :=
  let? c := rd p in
  if (c =? 101) || (c =? 69) then
    let p := tl p in
    let? s := rd p in
    let p := if (s =? 43) || (s =? 45) then tl p else p in
    let? x := exponent p 0 in
    POk ((if s =? 45 then -1 else 1) * fst x, snd x)
  else POk (0, p).
(** cJSON.c:107-157 parse_number (for 86-102 assign_cjson_number see [num_int]) *)
Definition parse_number (p : list Z) : pres (json * list Z) :=
  let? c := rd p in
  let neg := c =? 45 in
  let? i := int_part (if neg then tl p else p) in
  let? f := frac_part (snd i) (fst i) in
  let '(n, scale, p) := f in
  let? x := exp_part p in
  POk (JNum neg n (fst x - scale), snd x).

(** cJSON.c:86-102 assign_cjson_number: valueint and valueuint, when the flags
    say that they are set.  The conversions drop the fraction. *)
Definition whole (m e : Z) : Z := if 0 <=? e then m * 10 ^ e else m / 10 ^ (- e).
Definition num_le (m e k : Z) : bool := if 0 <=? e then m * 10 ^ e <=? k else m <=? k * 10 ^ (- e). (* m*10^e <= k *)
Definition num_int (neg : bool) (m e : Z) : option Z :=
  if neg then (if num_le m e (2 ^ 31) then Some (- whole m e) else None)
  else (if num_le m e (2 ^ 31 - 1) then Some (whole m e) else None).
Definition num_uint (neg : bool) (m e : Z) : option Z :=
  if neg then (if m =? 0 then Some 0 else None)
  else (if num_le m e (2 ^ 32 - 1) then Some (whole m e) else None).

(** cJSON.c:165-207 parse_hex4 *)
Definition hex_digit (c : Z) : option Z :=
  if is_digit c then Some (c - 48)
  else if (65 <=? c) && (c <=? 70) then Some (10 + c - 65)
  else if (97 <=? c) && (c <=? 102) then Some (10 + c - 97)
  else None.
Fixpoint hex_loop (k : nat) (p : list Z) (h : Z) : pres Z :=
  match k with
  | O => POk h
  | S k' =>
    let? c := rd p in
    match hex_digit c with
    | Some v => hex_loop k' (tl p) (Z.shiftl h 4 + v)
    | None => POk 0
    end
  end.
Definition parse_hex4 (p : list Z) : pres Z := hex_loop 4 p 0.

(** cJSON.c:226-231, the length of the string: what has to be allocated, roughly *)
Fixpoint str_len (p : list Z) : pres nat :=
  match p with
  | [] => PBad OverRead
  | c :: p' =>
    if (c =? 34) || (c =? 0) then POk O
    else if c =? 92 then
      match p' with
      | [] => PBad OverRead
      | _ :: p'' => let? n := str_len p'' in POk (S n)
      end
    else let? n := str_len p' in POk (S n)
  end.

(** Writing after [out] in a buffer of [cap] octets. *)
Definition write (cap : nat) (out bs : list Z) : pres (list Z) :=
  if (length out + length bs <=? cap)%nat then POk (out ++ bs) else PBad OverWrite.

(** cJSON.c:210-212 firstByteMark, 282-304: the octets of a code point *)
Definition first_mark (n : Z) : Z := if n =? 2 then 0xC0 else if n =? 3 then 0xE0 else if n =? 4 then 0xF0 else 0.
Definition cont (uc : Z) : Z := Z.land (Z.lor uc 0x80) 0xBF.
Definition lead (uc n : Z) : Z := Z.land (Z.lor uc (first_mark n)) 0xFF.
Definition encode (uc : Z) : list Z :=
  if uc <? 0x80 then [lead uc 1]
  else if uc <? 0x800 then [lead (Z.shiftr uc 6) 2; cont uc]
  else if uc <? 0x10000 then [lead (Z.shiftr uc 12) 3; cont (Z.shiftr uc 6); cont uc]
  else [lead (Z.shiftr uc 18) 4; cont (Z.shiftr uc 12); cont (Z.shiftr uc 6); cont uc].

(** cJSON.c:260-306, case 'u': [p] points at the u. What is written and where the
    pointer is left, before the increment of cJSON.c:311. *)
Definition unicode (p : list Z) : pres (list Z * list Z) :=
  let? uc := parse_hex4 (tl p) in
  let p := skipn 4 p in
  if ((0xDC00 <=? uc) && (uc <=? 0xDFFF)) || (uc =? 0) then POk ([], p)
  else if (0xD800 <=? uc) && (uc <=? 0xDBFF) then
    let? a := rd (skipn 1 p) in
    if negb (a =? 92) then POk ([], p)
    else
      let? b := rd (skipn 2 p) in
      if negb (b =? 117) then POk ([], p)
      else
        let? uc2 := parse_hex4 (skipn 3 p) in
        let p := skipn 6 p in
        if (uc2 <? 0xDC00) || (0xDFFF <? uc2) then POk ([], p)
        else POk (encode (Z.lor (Z.shiftl (Z.land uc 0x3FF) 10) (Z.land uc2 0x3FF) + 0x10000), p)
  else POk (encode uc, p).

(** cJSON.c:234-312, the copy; [out] is what has been written. *)
Fixpoint str_copy (fuel cap : nat) (p out : list Z) : pres (list Z * list Z) :=
  match fuel with
  | O => PFuel
  | S fuel' =>
    let? c := rd p in
    if (c =? 34) || (c =? 0) then POk (out, p)
    else if negb (c =? 92) then let? out := write cap out [c] in str_copy fuel' cap (tl p) out
    else
      let p := tl p in
      let? d := rd p in
      let? r := (if d =? 98 then POk ([8], p)
                 else if d =? 102 then POk ([12], p)
                 else if d =? 110 then POk ([10], p)
                 else if d =? 114 then POk ([13], p)
                 else if d =? 116 then POk ([9], p)
                 else if d =? 117 then unicode p
                 else POk ([d], p)) in
      let? out := write cap out (fst r) in
      str_copy fuel' cap (tl (snd r)) out
  end.

(** cJSON.c:214-319 parse_string *)
Definition parse_string (p : list Z) : pres (list Z * list Z) :=
  let? c := rd p in
  if negb (c =? 34) then PFail
  else
    let p := tl p in
    let? len := str_len p in
    let? r := str_copy (S (length p)) (S len) p [] in
    let (out, p) := (r : list Z * list Z) in
    let? _ := write (S len) out [0] in
    let? c := rd p in
    POk (out, if c =? 34 then tl p else p).

Definition w_null : list Z := [110; 117; 108; 108].
Definition w_false : list Z := [102; 97; 108; 115; 101].
Definition w_true : list Z := [116; 114; 117; 101].

(** cJSON.c:373-400 parse_value, 403-440 parse_array (after its bracket: [items])
    and 443-497 parse_object ([members]) *)
Fixpoint parse_value (fuel : nat) (p : list Z) : pres (json * list Z) :=
  match fuel with
  | O => PFuel
  | S fuel' =>
    let? b := starts w_null p in
    if b : bool then POk (JNull, skipn 4 p) else
    let? b := starts w_false p in
    if b : bool then POk (JFalse, skipn 5 p) else
    let? b := starts w_true p in
    if b : bool then POk (JTrue, skipn 4 p) else
    let? c := rd p in
    if c =? 34 then let? r := parse_string p in POk (JStr (fst r), snd r)
    else if (c =? 45) || is_digit c then parse_number p
    else if c =? 91 then
      let? p := skip (tl p) in
      let? c := rd p in
      if c =? 93 then POk (JArr [], tl p)
      else let? r := items fuel' p in POk (JArr (fst r), snd r)
    else if c =? 123 then
      let? p := skip (tl p) in
      let? c := rd p in
      if c =? 125 then POk (JObj [], tl p)
      else let? r := members fuel' p in POk (JObj (fst r), snd r)
    else PFail
  end
with items (fuel : nat) (p : list Z) : pres (list json * list Z) :=
  match fuel with
  | O => PFuel
  | S fuel' =>
    let? p := skip p in
    let? r := parse_value fuel' p in
    let (v, p) := (r : json * list Z) in
    let? p := skip p in
    let? c := rd p in
    if c =? 44 then let? r := items fuel' (tl p) in POk (v :: fst r, snd r)
    else if c =? 93 then POk ([v], tl p)
    else PFail
  end
with members (fuel : nat) (p : list Z) : pres (list (list Z * json) * list Z) :=
  match fuel with
  | O => PFuel
  | S fuel' =>
    let? p := skip p in
    let? r := parse_string p in
    let (name, p) := (r : list Z * list Z) in
    let? p := skip p in
    let? c := rd p in
    if negb (c =? 58) then PFail
    else
      let? p := skip (tl p) in
      let? r := parse_value fuel' p in
      let (v, p) := (r : json * list Z) in
      let? p := skip p in
      let? c := rd p in
      if c =? 44 then let? r := members fuel' (tl p) in POk ((name, v) :: fst r, snd r)
      else if c =? 125 then POk ([(name, v)], tl p)
      else PFail
  end.

(** cJSON.c:335-370 cJSON_Parse and cJSON_ParseWithOpts(value, 0, 0): what follows
    the value is not looked at.  [m] is the whole buffer. *)
Definition cJSON_Parse (m : list Z) : pres json :=
  let? p := skip m in
  let? r := parse_value (2 * length p + 2) p in
  POk (fst r).
