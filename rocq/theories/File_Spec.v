(** What a configuration file means, independently of the code that reads it. *)
Require Import Verif.Base Verif.Addr_Model Verif.Glob_Model Verif.Inst_Model Verif.Json_Model Verif.File_Model.
Require Import String Ascii.
Local Open Scope Z_scope.
Local Open Scope list_scope.

(** ** Words *)

(** The same letter, perhaps one of them a capital *)
Definition same_letter (x y : Z) : Prop := x = y \/ (65 <= x <= 90 /\ y = x + 32) \/ (65 <= y <= 90 /\ x = y + 32).
Definition same_word (a : list Z) (b : string) : Prop := Forall2 same_letter a (txt b).

(** ** Objects *)
Definition members := list (list Z * json).
(** No member is called [k]; only one is, and it is [v]. *)
Definition lacks (l : members) (k : string) : Prop := Forall (fun m => ~ same_word (fst m) k) l.
Definition has (l : members) (k : string) (v : json) : Prop :=
  exists n a b, l = a ++ (n, v) :: b /\ same_word n k /\ lacks (a ++ b) k.
Definition once (l : members) (k : string) : Prop := lacks l k \/ exists v, has l k v.
(** There are no other members, except for comments. *)
Definition only (l : members) (ks : list string) : Prop :=
  Forall (fun m => same_word (fst m) "comment" \/ exists k, In k ks /\ same_word (fst m) k) l.
(** A member that may be omitted *)
Definition optional {A} (l : members) (k : string) (P : json -> A -> Prop) (default x : A) : Prop :=
  (exists v, has l k v /\ P v x) \/ (lacks l k /\ x = default).
Definition mandatory {A} (l : members) (k : string) (P : json -> A -> Prop) (x : A) : Prop := exists v, has l k v /\ P v x.

(** ** Numbers *)

(** It is the whole number [u]. *)
Definition is_number (v : json) (u : Z) : Prop :=
  exists neg m e, v = JNum neg m e /\ 0 <= m /\ (if neg then - m else m) * 10 ^ Z.max 0 e = u * 10 ^ Z.max 0 (- e).
(** It is not negative nor more than 32 bits, and [u] is what is left if the fraction is dropped. *)
Definition is_part (v : json) (u : Z) : Prop :=
  exists neg m e, v = JNum neg m e /\ 0 <= m /\ let a := (if neg then - m else m) * 10 ^ Z.max 0 e in let b := 10 ^ Z.max 0 (- e) in
    0 <= a <= (2 ^ 32 - 1) * b /\ u * b <= a < (u + 1) * b.
(** As marks are read: as zero, from 2^31 on *)
Definition is_mark_part (v : json) (u : Z) : Prop :=
  exists neg m e w, v = JNum neg m e /\ is_part v w /\
    let a := (if neg then - m else m) * 10 ^ Z.max 0 e in let b := 10 ^ Z.max 0 (- e) in
    (a <= (2 ^ 31 - 1) * b /\ u = w \/ (2 ^ 31 - 1) * b < a /\ u = 0).

(** ** Values *)

(** What texts and numbers stand for *)
Record reading := Reading {
  r_prefix6 : list Z -> prefix6 -> Prop;
  r_prefix4 : list Z -> prefix4 -> Prop;
  r_address6 : list Z -> Z * Z -> Prop;
  r_address4 : list Z -> Z * Z -> Prop;
  r_ports : list Z -> Z * Z -> Prop;
  r_time : list Z -> Z -> Prop;
  r_number : json -> Z -> Prop;
  r_mark : json -> Z -> Prop;
}.
Section Meaning.
Context (R : reading).

Definition text {A} (P : list Z -> A -> Prop) (v : json) (x : A) : Prop := exists s, v = JStr s /\ P s x.
Definition between (a b : Z) (P : json -> Z -> Prop) (v : json) (u : Z) : Prop := P v u /\ a <= u <= b.
(** TCP is 0, UDP is 1, ICMP is 2. *)
Definition protocol (s : list Z) (p : Z) : Prop := same_word s "TCP" /\ p = 0 \/ same_word s "UDP" /\ p = 1 \/ same_word s "ICMP" /\ p = 2.
(** Flags (1: given, 2: automatic, 4: infinite) and a number *)
Definition iterations (v : json) (x : Z * Z) : Prop :=
  (exists u, between 1 (2 ^ 32 - 1) (r_number R) v u /\ x = (1, u)) \/ (v = JStr (txt "auto") /\ x = (1 + 2, 0)) \/ (v = JStr (txt "infinity") /\ x = (1 + 4, 0)).

(** ** Entries *)
Definition eam_means (v : json) (x : entry) : Prop :=
  exists l p6 p4, v = JObj l /\ x = EEam p6 p4 /\ only l ["ipv6 prefix"; "ipv4 prefix"]%string /\
    mandatory l "ipv6 prefix" (text (r_prefix6 R)) p6 /\ mandatory l "ipv4 prefix" (text (r_prefix4 R)) p4.
Definition deny_means (v : json) (x : entry) : Prop := exists p, text (r_prefix4 R) v p /\ x = EDeny p.
Definition pool4_means (v : json) (x : entry) : Prop :=
  exists l mark it proto p ports, v = JObj l /\ x = EPool4 mark (snd it) (fst it) proto p ports /\
    only l ["mark"; "protocol"; "prefix"; "port range"; "max-iterations"]%string /\
    optional l "mark" (between 0 (2 ^ 32 - 1) (r_mark R)) 0 mark /\ optional l "max-iterations" iterations (0, 0) it /\
    mandatory l "protocol" (text protocol) proto /\ mandatory l "prefix" (text (r_prefix4 R)) p /\
    optional l "port range" (text (r_ports R)) (61001, 65535) ports.
Definition bib_means (v : json) (x : entry) : Prop :=
  exists l a6 a4 proto, v = JObj l /\ x = EBib a6 a4 proto true /\ only l ["ipv6 address"; "ipv4 address"; "protocol"]%string /\
    mandatory l "ipv6 address" (text (r_address6 R)) a6 /\ mandatory l "ipv4 address" (text (r_address4 R)) a4 /\
    mandatory l "protocol" (text protocol) proto.

(** ** Settings *)
Inductive sort := Flag | Small | Number | Time | Sizes | Network6 | Network4 | Hairpin.
(** The documented names, the numbers that the protocol gives them, and their types *)
Definition catalogue : list (string * Z * sort) :=
  [("address-dependent-filtering", 14, Flag);
   ("amend-udp-checksum-zero", 9, Flag);
   ("drop-externally-initiated-tcp", 15, Flag);
   ("drop-icmpv6-info", 16, Flag);
   ("eam-hairpin-mode", 10, Hairpin);
   ("f-args", 18, Small);
   ("handle-rst-during-fin-rcv", 19, Flag);
   ("icmp-timeout", 23, Time);
   ("logging-bib", 24, Flag);
   ("logging-debug", 4, Flag);
   ("logging-session", 25, Flag);
   ("lowest-ipv6-mtu", 3, Number);
   ("manually-enabled", 1, Flag);
   ("maximum-simultaneous-opens", 26, Number);
   ("mtu-plateaus", 8, Sizes);
   ("override-tos", 6, Flag);
   ("pool6", 2, Network6);
   ("randomize-rfc6791-addresses", 11, Flag);
   ("rfc6791v4-prefix", 13, Network4);
   ("rfc6791v6-prefix", 12, Network6);
   ("source-icmpv6-errors-better", 17, Flag);
   ("ss-capacity", 30, Number);
   ("ss-enabled", 27, Flag);
   ("ss-flush-asap", 28, Flag);
   ("ss-flush-deadline", 29, Number);
   ("ss-max-payload", 31, Number);
   ("ss-max-sessions-per-packet", 32, Number);
   ("tcp-est-timeout", 20, Time);
   ("tcp-trans-timeout", 21, Time);
   ("tos", 7, Small);
   ("udp-timeout", 22, Time);
   ("zeroize-traffic-class", 5, Flag)]%string.
Definition value_means (t : sort) (v : json) (g : gval) : Prop :=
  match t with
  | Flag => v = JTrue /\ g = VU8 1 \/ v = JFalse /\ g = VU8 0
  | Small => exists u, between 0 255 (r_number R) v u /\ g = VU8 u
  | Number => exists u, between 0 (2 ^ 32 - 1) (r_number R) v u /\ g = VU32 u
  | Time => exists n, text (r_time R) v n /\ g = VU32 n
  | Sizes => exists l us, v = JArr l /\ Forall2 (between 0 65535 (r_number R)) l us /\ g = VPlateaus us
  | Network6 => (v = JNull \/ v = JStr (txt "null")) /\ g = VPrefix6 (Some 0) None \/
                exists p, text (r_prefix6 R) v p /\ v <> JStr (txt "null") /\ g = VPrefix6 (Some (p6_len p)) (Some (p6_addr p))
  | Network4 => (v = JNull \/ v = JStr (txt "null")) /\ g = VPrefix4 (Some 0) None \/
                exists p, text (r_prefix4 R) v p /\ v <> JStr (txt "null") /\ g = VPrefix4 (Some (p4_len p)) (Some (p4_addr p))
  | Hairpin => v = JStr (txt "off") /\ g = VU8 0 \/ v = JStr (txt "simple") /\ g = VU8 1 \/ v = JStr (txt "intrinsic") /\ g = VU8 2
  end.
(** The settings, in their order. An empty list of sizes is none. *)
Inductive settings_list : members -> list (Z * gval) -> Prop :=
| sl_nil : settings_list [] []
| sl_comment n v l gs : same_word n "comment" -> settings_list l gs -> settings_list ((n, v) :: l) gs
| sl_empty n v l gs k id : In (k, id, Sizes) catalogue -> same_word n k -> v = JArr [] -> settings_list l gs -> settings_list ((n, v) :: l) gs
| sl_value n v l gs k id t g : In (k, id, t) catalogue -> same_word n k -> value_means t v g -> g <> VPlateaus [] ->
    settings_list l gs -> settings_list ((n, v) :: l) ((id, g) :: gs).
Definition settings_mean (v : json) (gs : list (Z * gval)) : Prop :=
  exists l, v = JObj l /\ settings_list l gs /\ Forall (fun c => once l (fst (fst c))) catalogue.

(** ** Files *)
Inductive section := Settings (gs : list (Z * gval)) | Entries (k : kind) (l : list entry).
(** The lists that there can be, for SIIT (1) and for NAT64 (2) *)
Definition lists (xt : Z) : list (string * kind * (json -> entry -> Prop)) :=
  if xt =? 1 then [("eamt"%string, Eamt, eam_means); ("blacklist4"%string, Denylist4, deny_means); ("denylist4"%string, Denylist4, deny_means)]
  else if xt =? 2 then [("pool4"%string, Pool4, pool4_means); ("bib"%string, Bib, bib_means)] else [].
Definition tags (xt : Z) : list string := ["instance"; "framework"; "global"]%string ++ map (fun x => fst (fst x)) (lists xt).
(** The sections, in their order *)
Inductive sections (xt : Z) : members -> list section -> Prop :=
| s_nil : sections xt [] []
| s_other n v l ss : same_word n "comment" \/ same_word n "instance" \/ same_word n "framework" -> sections xt l ss -> sections xt ((n, v) :: l) ss
| s_global n v l ss gs : same_word n "global" -> settings_mean v gs -> sections xt l ss -> sections xt ((n, v) :: l) (Settings gs :: ss)
| s_list n v l ss t k P js es : In (t, k, P) (lists xt) -> same_word n t -> v = JArr js -> Forall2 P js es -> sections xt l ss ->
    sections xt ((n, v) :: l) (Entries k es :: ss).
(** 4 is Netfilter, 8 is iptables. *)
Definition framework (s : list Z) (f : Z) : Prop := s = txt "netfilter" /\ f = 4 \/ s = txt "iptables" /\ f = 8.
(** A name: at most 15 characters, none of them a control character *)
Definition good_name (n : list Z) : Prop := (List.length n < 16)%nat /\ Forall (fun c => 32 <= c) n.
(** The file [v] describes the instance [n], of framework [fw], with these sections.
    [arg]: the name that the user has given, if any. *)
Definition file_means (xt : Z) (arg : option name) (v : json) (n : name) (fw : Z) (ss : list section) : Prop :=
  exists l, v = JObj l /\ Forall (once l) (tags xt) /\ mandatory l "instance" (text eq) n /\ good_name n /\ (forall a, arg = Some a -> a = n) /\
    mandatory l "framework" (text framework) fw /\ sections xt l ss.
End Meaning.

(** ** Uploads *)

(** The messages that say that an upload begins, that it ends, and that carry part of it *)
Definition begins (xt : Z) (n : name) (fw : Z) : message (E := entry) := Msg xt n false (Some fw) None None None None None false.
Definition ends (xt : Z) (n : name) : message (E := entry) := Msg xt n false None None None None None None true.
Definition carries (xt : Z) (n : name) (force : bool) (k : kind) (l : list entry) : message (E := entry) :=
  match k with
  | Eamt => Msg xt n force None None None (Some l) None None false
  | Denylist4 => Msg xt n force None None (Some l) None None None false
  | Pool4 => Msg xt n force None None None None (Some l) None false
  | Bib => Msg xt n force None None None None None (Some l) false
  | _ => Msg xt n force None None None None None None false
  end.
Definition sets (xt : Z) (n : name) (force : bool) (gs : list (Z * gval)) : message (E := entry) :=
  Msg xt n force None (match gs with [] => None | _ => Some gs end) None None None None false.
(** The messages carry the sections: settings in one message; entries in as many as are
    needed, each of them once and in order. *)
Inductive transmits (xt : Z) (n : name) (force : bool) : list section -> list (message (E := entry)) -> Prop :=
| t_nil : transmits xt n force [] []
| t_settings gs ss ms : transmits xt n force ss ms -> transmits xt n force (Settings gs :: ss) (sets xt n force gs :: ms)
| t_entries k chunks ss ms : Forall (fun c => c <> []) chunks -> transmits xt n force ss ms ->
    transmits xt n force (Entries k (List.concat chunks) :: ss) (map (carries xt n force k) chunks ++ ms).
