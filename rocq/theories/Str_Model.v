(** Parsing of the command line's arguments, printing of values.
    Sources: src/usr/util/str_utils.c, src/common/global.c (userspace half).

    Strings are lists of octets other than 0, without the terminator. The C library is
    modelled by its documentation: strtoull() (ISO C 7.22.1.4; isspace() in the C locale), regexec(), strtok(),
    strcasecmp(), snprintf(). inet_pton() and inet_ntop() are arguments.
    Functions that fail yield [None]; error codes and messages are left out. (On failure,
    str_to_u16() and str_to_u32() write an indeterminate value, which their callers do not use.) *)
Require Import Verif.Base Verif.Addr_Model.

Definition str := list Z.
Definition isdigit (c : Z) : bool := (48 <=? c) && (c <=? 57).
Definition isspace (c : Z) : bool := (c =? 32) || ((9 <=? c) && (c <=? 13)).
Definition ULL : Z := 2 ^ 64.

(** strtoull() in base 10: the value, the rest of the string, whether errno was set *)
Fixpoint skip_spaces (s : str) : str := match s with c :: t => if isspace c then skip_spaces t else s | [] => [] end.
Fixpoint scan (n : Z) (s : str) : Z * str := match s with c :: t => if isdigit c then scan (n * 10 + (c - 48)) t else (n, s) | [] => (n, []) end.
Definition strtoull (s : str) : Z * str * bool :=
  let t := skip_spaces s in
  let (neg, t) := match t with c :: t' => if c =? 45 then (true, t') else if c =? 43 then (false, t') else (false, t) | [] => (false, t) end in
  match t with
  | c :: _ =>
    if isdigit c then
      let (n, r) := scan 0 t in
      if n <? ULL then ((if neg : bool then (- n) mod ULL else n), r, false) else (ULL - 1, r, true)
    else (0, s, false)
  | [] => (0, s, false)
  end.

(** src/usr/util/str_utils.c:15-53 validate_uint: does "^[0-9][0-9]*" match? *)
Definition validate_uint (s : str) : bool := match s with c :: _ => isdigit c | [] => false end.
(** src/usr/util/str_utils.c:55-85 str_to_ull: the number and the rest (endptr) *)
Definition str_to_ull (s : str) (min max : Z) : option (Z * str) :=
  if negb (validate_uint s) then None
  else let '(n, r, errno) := strtoull s in
       if errno : bool then None
       else if (n <? min) || (max <? n) then None
       else Some (n, r).
(** src/usr/util/str_utils.c:112-123 str_to_u8, src/usr/util/str_utils.c:125-134 str_to_u16, src/usr/util/str_utils.c:136-145 str_to_u32 *)
Definition str_to_u8 (s : str) (max : Z) : option Z := match str_to_ull s 0 max with Some (n, _) => Some (n mod 2 ^ 8) | None => None end.
Definition str_to_u16 (s : str) : option Z := match str_to_ull s 0 65535 with Some (n, _) => Some (n mod 2 ^ 16) | None => None end.
Definition str_to_u32 (s : str) : option Z := match str_to_ull s 0 4294967295 with Some (n, _) => Some (n mod 2 ^ 32) | None => None end.

(** strcasecmp() == 0, strcmp() == 0 *)
Definition lower (c : Z) : Z := if (65 <=? c) && (c <=? 90) then c + 32 else c.
Definition str_eqb (a b : str) : bool := if list_eq_dec Z.eq_dec a b then true else false.
Definition case_eqb (a b : str) : bool := str_eqb (map lower a) (map lower b).
Definition s_true : str := [116; 114; 117; 101].
Definition s_1 : str := [49].
Definition s_yes : str := [121; 101; 115].
Definition s_on : str := [111; 110].
Definition s_false : str := [102; 97; 108; 115; 101].
Definition s_0 : str := [48].
Definition s_no : str := [110; 111].
Definition s_off : str := [111; 102; 102].
(** src/usr/util/str_utils.c:87-110 str_to_bool *)
Definition str_to_bool (s : str) : option bool :=
  if case_eqb s s_true || case_eqb s s_1 || case_eqb s s_yes || case_eqb s s_on then Some true
  else if case_eqb s s_false || case_eqb s s_0 || case_eqb s s_no || case_eqb s s_off then Some false
  else None.

(** src/usr/util/str_utils.c:147-209 str_to_timeout *)
Definition str_to_timeout (s : str) : option Z :=
  let '(seconds, tail, errno) := strtoull s in
  if errno : bool then None else
  let '(seconds, tail, errno) :=
    match tail with
    | 58 :: t =>
      let '(n, tail, errno) := strtoull t in
      let seconds := (60 * seconds + n) mod ULL in
      if errno : bool then (seconds, tail, true)
      else match tail with
           | 58 :: t => let '(n, tail, errno) := strtoull t in ((60 * seconds + n) mod ULL, tail, errno)
           | _ => (seconds, tail, false)
           end
    | _ => (seconds, tail, false)
    end in
  if errno : bool then None else
  let milliseconds := (1000 * seconds) mod ULL in
  match tail with
  | 46 :: t =>
    if (length t <? 3)%nat then None
    else let '(n, tail, errno) := strtoull t in
         if errno : bool then None
         else match tail with [] => Some (((milliseconds + n) mod ULL) mod 2 ^ 32) | _ => None end
  | [] => Some (milliseconds mod 2 ^ 32)
  | _ => None
  end.

(** src/usr/util/str_utils.c:211-233 str_to_port_range *)
Definition str_to_port_range (s : str) : option (Z * Z) :=
  match str_to_ull s 0 65535 with
  | None => None
  | Some (min, 45 :: t) => match str_to_ull t 0 65535 with None => None | Some (max, _) => Some (min, max) end
  | Some (min, _) => Some (min, min)
  end.

(** strtok(s, delim), then strtok(NULL, delim) until NULL: the tokens *)
Fixpoint tokens (delim : Z) (s : str) (cur : str) : list str :=
  match s with
  | [] => match cur with [] => [] | _ => [rev cur] end
  | c :: t => if c =? delim then match cur with [] => tokens delim t [] | _ => rev cur :: tokens delim t [] end else tokens delim t (c :: cur)
  end.
Definition strtok (delim : Z) (s : str) : list str := tokens delim s [].

(** inet_pton() and inet_ntop() *)
Record inet := Inet { pton4 : str -> option Z; pton6 : str -> option Z; ntop4 : Z -> str; ntop6 : Z -> str }.

Section Str.
Context (N : inet).

(** src/usr/util/str_utils.c:257-341 str_to_addr4_port, str_to_addr6_port. [max_len]: STR_MAX_LEN *)
Definition str_to_addr_port (pton : str -> option Z) (max_len : Z) (s : str) : option (Z * Z) :=
  if max_len <? Z.of_nat (length s) + 1 then None
  else match strtok 35 s with
       | [] => None
       | a :: r =>
         match pton a with
         | None => None
         | Some addr => match r with [] => None | p :: _ => match str_to_u16 p with Some port => Some (addr, port) | None => None end end
         end
       end.
Definition str_to_addr4_port (s : str) : option (Z * Z) := str_to_addr_port (pton4 N) (16 + 1 + 5) s.
Definition str_to_addr6_port (s : str) : option (Z * Z) := str_to_addr_port (pton6 N) (46 + 1 + 5) s.
(** src/usr/util/str_utils.c:343-421 str_to_prefix4, str_to_prefix6. [max]: of the length *)
Definition str_to_prefix (pton : str -> option Z) (max_len max : Z) (s : str) : option (Z * Z) :=
  if max_len <? Z.of_nat (length s) + 1 then None
  else match strtok 47 s with
       | [] => None
       | a :: r =>
         match pton a with
         | None => None
         | Some addr => match r with [] => Some (addr, max) | l :: _ => match str_to_u8 l max with Some len => Some (addr, len) | None => None end end
         end
       end.
Definition str_to_prefix4 (s : str) : option prefix4 := match str_to_prefix (pton4 N) (16 + 1 + 2) 32 s with Some (a, l) => Some (P4 a l) | None => None end.
Definition str_to_prefix6 (s : str) : option prefix6 := match str_to_prefix (pton6 N) (46 + 1 + 3) 128 s with Some (a, l) => Some (P6 a l) | None => None end.

(** src/usr/util/str_utils.c:423-481 str_to_plateaus_array. (malloc() does not fail.) *)
Fixpoint all_u16 (l : list str) : option (list Z) :=
  match l with [] => Some [] | t :: l => match str_to_u16 t with None => None | Some n => match all_u16 l with None => None | Some r => Some (n :: r) end end end.
Definition str_to_plateaus_array (s : str) : option (list Z) :=
  let len := length (strtok 44 s) in
  if (len =? 0)%nat then None else if (64 <? len)%nat then None else all_u16 (strtok 44 s).

(** ** Printing *)

(** printf("%u") and printf("%0wu") of an unsigned int. [fuel]: more than the digits there are *)
Fixpoint print_digits (fuel : nat) (n : Z) (acc : str) : str :=
  match fuel with O => acc | S f => let acc := (48 + n mod 10) :: acc in if n / 10 =? 0 then acc else print_digits f (n / 10) acc end.
Definition print_u (n : Z) : str := print_digits 20 n [].
Definition print_0u (w : nat) (n : Z) : str := let d := print_u n in repeat 48 (w - length d) ++ d.
(** snprintf(): what is written to the buffer (without the terminator) *)
Definition snprintf (size : nat) (s : str) : str := firstn (size - 1) s.
(** src/usr/util/str_utils.c:483-508 timeout2str. The result: the buffer's string. *)
Definition TIMEOUT_BUFLEN : nat := 32.
Definition timeout2str (millis : Z) : str :=
  let hours := millis / 3600000 in
  let millis := (millis - hours * 3600000) mod 2 ^ 32 in
  let minutes := millis / 60000 in
  let millis := (millis - minutes * 60000) mod 2 ^ 32 in
  let seconds := millis / 1000 in
  let millis := (millis - seconds * 1000) mod 2 ^ 32 in
  let first := print_u hours ++ [58] ++ print_0u 2 minutes ++ [58] ++ print_0u 2 seconds in
  let buffer := snprintf TIMEOUT_BUFLEN first in
  if millis =? 0 then buffer else buffer ++ snprintf (TIMEOUT_BUFLEN - length first) ([46] ++ print_0u 3 millis).

(** src/common/global.c:289-296 print_bool, src/common/global.c:298-308 print_u8, print_u32; src/common/global.c:310-320 print_timeout;
    src/common/global.c:322-338 print_plateaus; src/common/global.c:340-369 print_prefix; src/common/global.c:371-386 print_hairpin_mode: with --csv. (Quotes
    around the plateaus: the CSV's.) *)
Definition print_bool (b : bool) : str := if b then [84; 82; 85; 69] else [70; 65; 76; 83; 69].
Fixpoint print_list (l : list Z) : str := match l with [] => [] | [n] => print_u n | n :: t => print_u n ++ [44] ++ print_list t end.
Definition print_prefix4 (p : option prefix4) : str := match p with None => [] | Some p => ntop4 N (p4_addr p) ++ [47] ++ print_u (p4_len p) end.
Definition print_prefix6 (p : option prefix6) : str := match p with None => [] | Some p => ntop6 N (p6_addr p) ++ [47] ++ print_u (p6_len p) end.
Definition s_simple : str := [115; 105; 109; 112; 108; 101].
Definition s_intrinsic : str := [105; 110; 116; 114; 105; 110; 115; 105; 99].
Definition s_unknown : str := [117; 110; 107; 110; 111; 119; 110].
Definition print_hairpin_mode (m : Z) : str := if m =? 0 then s_off else if m =? 1 then s_simple else if m =? 2 then s_intrinsic else s_unknown.
(** src/common/global.c:542-578 str2nl_prefix6, str2nl_prefix4: [None] is unset *)
Definition s_null : str := [110; 117; 108; 108].
Definition str2nl_prefix6 (s : str) : option (option prefix6) := if str_eqb s s_null then Some None else match str_to_prefix6 s with Some p => Some (Some p) | None => None end.
Definition str2nl_prefix4 (s : str) : option (option prefix4) := if str_eqb s s_null then Some None else match str_to_prefix4 s with Some p => Some (Some p) | None => None end.
(** src/common/global.c:580-600 str2nl_hairpin_mode *)
Definition str2nl_hairpin_mode (s : str) : option Z := if str_eqb s s_off then Some 0 else if str_eqb s s_simple then Some 1 else if str_eqb s s_intrinsic then Some 2 else None.
End Str.
